(** Model of timeutils.removeleapyears: /repo/pygeode/timeutils.py:199-284.  Exact rational arithmetic; names and meta-data are left out. *)
From Coq Require Import ZArith List Bool QArith_base Qround.
From Verif Require Import CalModel TimeSearchModel IndexModel IndexSpec ArrModel ViewModel AxisModel VarOpsModel SelectModel StencilModel ConcatModel ClimModel.
Import ListNotations.
Open Scope Z_scope.

(* timeutils.py:239 isleapyear, for one year (Python's %); isinstance(taxis, StandardTime) = the standard calendar *)
Definition py_leap (c : cal) (y : Z) : bool :=
  match c with
  | Std => (y mod 4 =? 0) && (negb (y mod 100 =? 0) || (y mod 400 =? 0))
  | _ => false
  end.
(* {'year':y, 'month':1, 'day':1} *)
Definition new_year (y : Z) : pdate := mkpdate (Some y) (Some 1) (Some 1) None None None.
(* timeutils.py:243, 271  reltime(taxis(year=y), startdate=..., units='days')+1; the selection by the (integer) auxiliary
   array 'year' keeps the elements with exactly that year (C31) *)
Definition days_of (t : taxis) (y : Z) : option (list Q) :=
  sequence (map (fun d => option_map (fun q => q + 1)%Q (date_as_val (t_cal t) (new_year y) Days (mask_date (t_mask t) d)))
                (filter (fun d => year d =? y) (t_dates t))).
(* sorted(set(taxis.year)) *)
Definition years_of (t : taxis) : list Z := np_unique (map year (t_dates t)).
(* sorted(l, reverse=True) *)
Fixpoint insert_down (x : Z) (l : list Z) : list Z :=
  match l with [] => [x] | y :: t => if y <=? x then x :: l else y :: insert_down x t end.
Definition sorted_down (l : list Z) : list Z := fold_right insert_down [] l.
(* timeutils.py:274-275  doy = doy[np.floor(doy) != d]; doy[doy>d] -= 1 *)
Definition strip (d : Z) (doy : list Q) : list Q :=
  map (fun q => if Qle_bool q (inject_Z d) then q else (q - 1)%Q) (filter (fun q => negb (Qfloor q =? d)) doy).
Definition all_fields : mask := mkmask true true true true true true.
(* timeutils.py:277  new_axis_type(values=doy-1, units='days', startdate={'year':y, 'month':1, 'day':1}): all fields of the
   start date are filled in (timeaxis.py:375), so all are present; the values are recomputed (timeaxis.py:113) *)
Definition new_piece (cls : list Z) (c : cal) (y : Z) (doy : list Q) : option taxis :=
  let start := mkpdate (Some y) (Some 1) (Some 1) (Some 0) (Some 0) (Some 0) in
  bind (sequence (map (fun q => val_as_date c start Days false (q - 1)%Q) doy)) (fun ds =>
  let dates := map get_dates ds in
  bind (sequence (map (axis_value c start Days all_fields) dates)) (fun vals =>
  Some (MkTime cls c start Days all_fields dates vals))).

Section Leap.
Context {V : Type} (env : axenv) (junk : list Z -> V).
(* timeutils.py:199-284; [cls], [c] = class and calendar of new_axis_type (one with years).  An axis without years fails.
   new_axis_type.concat (line 281) is the concatenation of axes; of one piece it is that piece. *)
Definition removeleapyears (x : var axis V) (omit_leap omit_noleap : list Z) (cls : list Z) (c : cal) : option (var axis V) :=
  bind (time_index (var_axes x)) (fun '(ti, t) =>
  if negb (my (t_mask t)) then None else
  let omitted y := if py_leap (t_cal t) y then omit_leap else omit_noleap in
  bind (option_map (@List.concat Q) (sequence (map (days_of t) (years_of t)))) (fun doy =>
  let omit := map (fun '(d, q) => existsb (Z.eqb (Qfloor q)) (omitted (year d))) (combine (t_dates t) doy) in
  let indices := flatnonzero (map negb omit) in
  bind (slice_var env junk x (map Sl (set_at (map (fun _ => whole) (var_axes x)) ti (SList indices)))) (fun data =>
  bind (sequence (map (fun y => bind (days_of t y) (fun doy =>
          option_map Time (new_piece cls c y (fold_left (fun l d => strip d l) (sorted_down (omitted y)) doy)))) (years_of t))) (fun pieces =>
  bind (axis_concat env pieces) (fun new =>
  replace_axes env junk data (set_at (var_axes data) ti new)))))).
End Leap.
