(** Model of the time axis that open_multi makes up from the first and the last of many files: /repo/pygeode/formats/multifile.py:251-289.
    Simplifications: float64 values are exact rationals; the two axes are of the same class. *)
From Coq Require Import ZArith List Bool QArith_base Qabs.
From Verif Require Import CalModel TimeSearchModel IndexModel ArrModel AxisModel StencilModel VarOpsModel ClimModel MultiFileModel.
Import ListNotations.
Open Scope Z_scope.

(* timeutils.py:97-121  delta, units=None, allow_multiple=False *)
Definition qdiffs (l : list Q) : list Q := map (fun '(a, b) => (b - a)%Q) (combine l (tl l)).
Definition delta (t : taxis) : option Q :=
  match qdiffs (t_vals t) with
  | [] => Some 0%Q
  | d :: r => if forallb (fun e => close e d) (d :: r) then Some d else None
  end.

(* timeaxis.py:371-377  the start date is completed, for the fields that the class allows *)
Definition or_else (o : option Z) (v : Z) : option Z := match o with Some x => Some x | None => Some v end.
Definition fill_start (c : cal) (p : pdate) : pdate :=
  match c with
  | Yearless => mkpdate (pyear p) (pmonth p) (or_else (pday p) 1) (or_else (phour p) 0) (or_else (pminute p) 0) (or_else (psecond p) 0)
  | _ => mkpdate (or_else (pyear p) 1) (or_else (pmonth p) 1) (or_else (pday p) 1) (or_else (phour p) 0) (or_else (pminute p) 0) (or_else (psecond p) 0)
  end.
Definition is_some {A} (o : option A) : bool := match o with Some _ => true | None => false end.
Definition fields_of (p : pdate) : mask := mkmask (is_some (pyear p)) (is_some (pmonth p)) (is_some (pday p)) (is_some (phour p)) (is_some (pminute p)) (is_some (psecond p)).

(* axis.py:645-649  withnewvalues; timeaxis.py:371-416, 88-113 *)
Definition with_new_values (t : taxis) (values : list Q) : option taxis :=
  let start := fill_start (t_cal t) (t_start t) in
  bind (sequence (map (val_as_date (t_cal t) start (t_units t) false) values)) (fun ps =>
  let dates := map get_dates ps in
  bind (sequence (map (axis_value (t_cal t) start (t_units t) (fields_of start)) dates)) (fun vals =>
  Some (MkTime (t_class t) (t_cal t) start (t_units t) (fields_of start) dates vals))).

Definition same_unit (u w : CalModel.unit) : bool := Pos.eqb (unitfactor u) (unitfactor w).

(* multifile.py:263-289  one pass of the loop, for a variable with the times t1 in the first file and t2 in the last one *)
Definition multi_times (faxis t1 t2 : taxis) : option taxis :=
  if Z.max (zlen (t_dates t1)) (zlen (t_dates t2)) =? 1 then
    bind (reltime t1 (t_start faxis) (t_units faxis)) (fun l => bind (hd_error l) (fun offset =>
    with_new_values faxis (map (fun v => (v + offset)%Q) (t_vals faxis))))
  else if negb (same_unit (t_units t1) (t_units t2)) then None else
    bind (delta t1) (fun d1 => bind (delta t2) (fun d2 =>
    let dt := if Qle_bool d2 d1 then d1 else d2 in
    if Qle_bool dt 0 then None else
    bind (hd_error (t_vals t1)) (fun val1 =>
    bind (reltime t2 (t_start t1) (t_units t2)) (fun l => bind (hd_error (rev l)) (fun val2 =>
    let ntf := ((val2 - val1) / dt)%Q in
    let nt := round_half_even ntf in
    if negb (Qle_bool (Qabs (ntf - inject_Z nt)) ((1 # 10) * dt)) then None else
    if nt + 1 <=? 0 then None else
    with_new_values t1 (map (fun i => (inject_Z i * dt + val1)%Q) (arange 0 (nt + 1) 1))))))).
