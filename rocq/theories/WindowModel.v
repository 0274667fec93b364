(** Model of the variables that read shifted or cut-out parts of another one: LagVar
    (/repo/pygeode/timeutils.py:288-341), CompositeVar and FlattenVar (/repo/pygeode/composite.py:18-119, 206-292).
    Axis arguments are positions (whichaxis is applied already); dtypes (floating point is assumed), meta-data and
    progress bars are left out.  out[list] with a list of indices means out[tuple(list)], as in the versions of numpy
    that accept it. *)
From Coq Require Import ZArith List Bool QArith_base.
From Verif Require Import CalModel TimeSearchModel IndexModel IndexSpec ArrModel ViewModel AxisModel VarOpsModel ReduceModel NumModel StencilModel ConcatModel.
Import ListNotations.
Open Scope Z_scope.

(** *** numpy *)
(* np.min, np.max; ValueError if empty *)
Definition zmin (l : list Z) : option Z := match l with [] => None | x :: t => Some (fold_left Z.min t x) end.
Definition zmax (l : list Z) : option Z := match l with [] => None | x :: t => Some (fold_left Z.max t x) end.
(* np.where(mask)[0] *)
Definition places (f : Z -> bool) (l : list Z) : list Z := filter (fun k => f (znth l k)) (arange 0 (zlen l) 1).
(* a[..., idx, ...] with an index array for axis d; IndexError outside of the array *)
Definition take_checked {V} (a : arr V) (d : nat) (idx : list Z) : option (arr V) :=
  option_map (take_axis a d) (np_index (SList idx) (nth d (shape a) 0)).
(** the last k with l[k] = (x, y) *)
Fixpoint last_pair (l : list (Z * Z)) (x y : Z) (k : Z) : option Z :=
  match l with
  | [] => None
  | (a, b) :: t => match last_pair t x y (k + 1) with
                   | Some i => Some i
                   | None => if (x =? a) && (y =? b) then Some k else None
                   end
  end.
(* a[..., I, J, ...] = b, for index arrays I, J (one of them may be a number, which is repeated) for the axes d and
   d + 1: [pairs] are their elements.  If a pair is repeated the last one counts.  Negative indices do not occur. *)
Definition put_pairs {V} (a : arr V) (d : nat) (pairs : list (Z * Z)) (b : arr V) : option (arr V) :=
  if forallb (fun '(i, j) => (0 <=? i) && (i <? nth d (shape a) 0) && (0 <=? j) && (j <? nth (S d) (shape a) 0)) pairs then
    bind (broadcast b (set_at (remove_at (shape a) (S d)) d (zlen pairs))) (fun b =>
    Some (Arr (shape a) (fun p => match last_pair pairs (nth d p 0) (nth (S d) p 0) 0 with
                                  | Some k => val b (set_at (remove_at p (S d)) d k)
                                  | None => val a p
                                  end)))
  else None.
(* a[..., I, J, ...] = c, a number *)
Definition put_const {V} (a : arr V) (d : nat) (pairs : list (Z * Z)) (c : V) : option (arr V) :=
  put_pairs a d pairs (Arr (set_at (remove_at (shape a) (S d)) d (zlen pairs)) (fun _ => c)).

(** *** time offsets *)
(* timeaxis.py:355-420, 71-125, with values, units and startdate = {'day':0}: the dates are those of the values, rounded to
   seconds, and the values are recomputed from them *)
Definition offset_mask : mask := mkmask false false true true true true.
Definition offset_start : pdate := mkpdate None None (Some 0) (Some 0) (Some 0) (Some 0).
Definition offset_axis (cls : list Z) (units : CalModel.unit) (vals : list Q) : option axis :=
  bind (sequence (map (fun v => option_map get_dates (val_as_date Yearless offset_start units false v)) vals)) (fun dates =>
  bind (sequence (map (axis_value Yearless offset_start units offset_mask) dates)) (fun vals =>
  Some (Time (MkTime cls Yearless offset_start units offset_mask dates vals)))).

Section Env.
Context (env : axenv) (junk : list Z -> num).
Notation ops := (axis_ops env).
Notation var := (ViewModel.var axis num).

(** *** LagVar *)
(* timeutils.py:329-338  the loop body for lag number [i], which is [l]; [N] is the length of the time axis *)
Definition lag_step (src : arr num) (d : nat) (N imin : Z) (tind : list Z) (out : option (arr num)) (il : Z * Z) : option (arr num) :=
  let '(i, l) := il in
  bind out (fun out =>
  let valid t := (0 <=? t + l) && (t + l <? N) in
  let ivalid := places valid tind in
  bind (take_checked src d (map (fun k => znth tind k + l - imin) ivalid)) (fun b =>
  bind (put_pairs out d (map (fun k => (k, i)) ivalid) b) (fun out =>
  put_const out d (map (fun k => (k, i)) (places (fun t => negb (valid t)) tind)) NaN))).
(* timeutils.py:312-340  getview *)
Definition lag_view (x : var) (d : nat) (N : Z) (lags : list Z) (v : view axis) : option (arr num) :=
  let lind := map (znth lags) (nth (S d) (vinds v) []) in
  bind (zmin lind) (fun loff => bind (zmax lind) (fun roff =>
  let tind := nth d (vinds v) [] in
  bind (zmin tind) (fun tmin => bind (zmax tind) (fun tmax =>
  let imin := Z.max (tmin + loff) 0 in
  let tsl := Slice (Some imin) (Some (Z.min (tmax + roff + 1) N)) None in
  bind (modify_slice env (remove_axis v (S d)) d (SSlice tsl)) (fun inview =>
  bind (ViewModel.get ops junk inview x true true) (fun src =>
  fold_left (lag_step src d N imin tind) (combine (arange 0 (zlen lind) 1) lind) (Some (Arr (vshape v) junk)))))))).
(* timeutils.py:290-310  the constructor; [lag_class] is the class Lag.  None = not a Time axis, or less than two times *)
Definition lag_var (lag_class : list Z) (x : var) (d : nat) (lags : list Z) (reverse : bool) : option var :=
  bind (nth_error (var_axes x) d) (fun a =>
  match a with
  | Time t =>
    match t_vals t with
    | v0 :: v1 :: _ =>
      let delt := (v1 - v0)%Q in
      let delt := if reverse then (- delt)%Q else delt in
      let lags := if reverse then rev lags else lags in
      bind (offset_axis lag_class (t_units t) (map (fun l => delt * inject_Z l)%Q lags)) (fun lag =>
      Some (Var (insert_at (var_axes x) (S d) lag) (GetView (lag_view x d (axis_len a) lags))))
    | _ => None
    end
  | _ => None
  end).

(** *** CompositeVar *)
(** a number for all the events, or one for each *)
Inductive amount := One (z : Z) | Each (l : list Z).
(* timeutils.py:97-121  delta(taxis, units = taxis.units, allow_multiple=True) *)
Fixpoint qdiff (l : list Q) : list Q := match l with x :: ((y :: _) as t) => (y - x)%Q :: qdiff t | _ => [] end.
Definition qmin (x y : Q) : Q := if Qle_bool x y then x else y.
Definition delta (vals : list Q) : Q :=
  match qdiff vals with
  | [] => 0%Q
  | d0 :: ds => if forallb (fun d => close d d0) (d0 :: ds) then d0 else fold_left qmin ds d0
  end.
(* composite.py:30-47  offset and length of each event, largest offset, and length of the offset axis; None = a list
   of the wrong length, or max of an empty list *)
Definition event_windows (n : nat) (evlen evoff : amount) : option (list Z * list Z * Z * Z) :=
  bind (match evoff with
        | One z => Some (repeat z n, z)
        | Each l => if Nat.eqb (length l) n then bind (zmax l) (fun m => Some (l, m)) else None
        end) (fun '(offs, mevoff) =>
  match evlen with
  | One z => Some (repeat z n, offs, z, mevoff)
  | Each l => if Nat.eqb (length l) n then bind (zmax (map (fun '(el, eo) => el - eo + mevoff) (combine l offs))) (fun m => Some (l, offs, m, mevoff)) else None
  end).
(* composite.py:69-74  (iev, el, eo) -> (iev, el, eo) *)
Definition clip_event (N : Z) (e : Z * Z * Z) : Z * Z * Z :=
  let '(iev, el, eo) := e in
  let '(el', eo') := if iev - eo <? 0 then (el - (iev - eo), eo + (iev - eo)) else (el, eo) in
  (iev, if N <=? iev - eo + el then N - (iev - eo) else el', eo').
(* composite.py:108-117  the loop body for event number [i] of the view *)
Definition event_step (x : var) (inviewt : view axis) (d : nat) (icmsl : list Z) (out : option (arr num)) (ie : Z * (Z * Z * Z)) : option (arr num) :=
  let '(i, (ev, el, eo)) := ie in
  bind out (fun out =>
  let mask := places (fun k => (- eo <=? k) && (k <? el - eo)) icmsl in
  let icsl := map (fun j => znth icmsl j + ev) mask in
  bind (modify_slice env inviewt d (SList icsl)) (fun inview =>
  bind (ViewModel.get ops junk inview x true true) (fun b =>
  put_pairs out d (map (fun j => (i, j)) mask) b))).
(* view.py:323-330 *)
Definition add_axis (v : view axis) (d : nat) (a : axis) (sl : sel) : option (view axis) :=
  view_of_slices ops (insert_at (vaxes v) d a) (insert_at (vslices v) d sl).
(* composite.py:81-119  getview; [events]: what is known about the events (clipped) *)
Definition composite_view (x : var) (d : nat) (a : axis) (events : list (Z * Z * Z)) (mevoff : Z) (v : view axis) : option (arr num) :=
  let icmsl := map (fun k => k - mevoff) (nth (S d) (vinds v) []) in
  bind (add_axis (remove_axis (remove_axis v (S d)) d) d a whole) (fun inviewt =>
  let evs := map (fun i => nth (Z.to_nat i) events (0, 0, 0)) (nth d (vinds v) []) in
  fold_left (event_step x inviewt d icmsl) (combine (arange 0 (zlen evs) 1) evs) (Some (Arr (vshape v) (fun _ => NaN)))).

(** the classes Event, Offset and Yearless, their names, and the name "indices" *)
Context (event_class offset_class yearless_class : list Z) (event_name offset_name indices_name : Z).
Definition of_Zs (l : list Z) : list Q := map inject_Z l.
(* composite.py:22-79  the constructor.  The offset axis of a time axis has its units. *)
Definition composite_var (x : var) (d : nat) (ievents : list Z) (evlen evoff : amount) : option var :=
  bind (nth_error (var_axes x) d) (fun a =>
  let n := length ievents in
  bind (event_windows n evlen evoff) (fun '(lens, offs, mevlen, mevoff) =>
  let numbers := of_Zs (map (fun k => k + 1) (arange 0 (Z.of_nat n) 1)) in
  let ev := Coord (MkCoord Plain event_class event_name numbers [(indices_name, of_Zs ievents)] [] (new_rtol env numbers)) in
  let offsets := of_Zs (arange (- mevoff) (mevlen - mevoff) 1) in
  bind (match a with
        | Time t => let dt := delta (t_vals t) in offset_axis yearless_class (t_units t) (map (fun o => dt * o)%Q offsets)
        | _ => Some (Coord (MkCoord Plain offset_class offset_name offsets [] [] (new_rtol env offsets)))
        end) (fun off =>
  let events := map (clip_event (axis_len a)) (combine (combine ievents lens) offs) in
  Some (Var (insert_at (set_at (var_axes x) d ev) (S d) off) (GetView (composite_view x d a events mevoff)))))).

(** *** FlattenVar *)
Section Flatten.
Context {V : Type} (junkv : list Z -> V).
(** slice(a, b) *)
Definition from_to (a b : Z) : sel := SSlice (Slice (Some a) (Some b) None).
(* composite.py:243-292  getview; io = d, ii = d + 1, [ao] and [ai] are the axes of the source *)
Definition flatten_view (x : ViewModel.var axis V) (d : nat) (ao ai : axis) (stride : Z) (v : view axis) : option (arr V) :=
  match nth d (vslices v) (SInt 0) with
  | SSlice (Slice (Some f) (Some t) _) =>
    if stride =? 0 then None else
    let os := f / stride in
    let oe := - (- t / stride) in
    bind (replace_axis env v d ao whole) (fun inviewt =>
    bind (add_axis inviewt (S d) ai whole) (fun inviewt =>
    let part o1 o2 i1 i2 shp :=
      bind (modify_slice env inviewt d (from_to o1 o2)) (fun w =>
      bind (modify_slice env w (S d) (from_to i1 i2)) (fun w =>
      bind (ViewModel.get ops junkv w x true true) (fun b => reshape b (set_at (vshape v) d shp)))) in
    if oe - os =? 1 then part os oe (f - os * stride) (t - os * stride) (nth d (vshape v) 0)
    else
      bind (part os (os + 1) (f - os * stride) stride (stride - (f - os * stride))) (fun b1 =>
      bind (part (os + 1) (oe - 1) 0 stride ((oe - 1 - (os + 1)) * stride)) (fun b2 =>
      bind (part (oe - 1) oe 0 (t - (oe - 1) * stride) (t - (oe - 1) * stride)) (fun b3 =>
      bind (concatenate b2 b3 d) (fun b => concatenate b1 b d))))))
  | _ => None
  end.
(** the name of an axis of a given class that was not given a name *)
Context (class_name : list Z -> Z).
(* composite.py:210-241  the constructor, inner = d + 1.  None = the outer axis is not a coordinate axis and no axis is given *)
Definition flatten_var (x : ViewModel.var axis V) (d : nat) (naxis : option axis) : option (ViewModel.var axis V) :=
  bind (nth_error (var_axes x) d) (fun ao =>
  bind (nth_error (var_axes x) (S d)) (fun ai =>
  let stride := axis_len ai in
  let vals := List.concat (map (fun i => map (fun v => inject_Z (i * stride) + v)%Q (axis_vals ai)) (arange 0 (axis_len ao) 1)) in
  bind (match naxis, ao with
        | Some n, _ => Some n
        | None, Coord c => Some (Coord (MkCoord (c_kind c) (c_class c) (match c_kind c with Plain => class_name (c_class c) | _ => c_name c end) vals [] [] (new_rtol env vals)))
        | _, _ => None
        end) (fun n =>
  Some (Var (set_at (remove_at (var_axes x) (S d)) d n) (GetView (flatten_view x d ao ai stride)))))).
End Flatten.
End Env.
