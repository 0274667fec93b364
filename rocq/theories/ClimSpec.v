(** Vocabulary for the climatologies. *)
From Coq Require Import ZArith List QArith_base Qcanon.
From Verif Require Import CalModel CalSpec TimeSearchModel TimeSearchSpec SortSpec IndexModel IndexSpec ArrModel ViewModel ViewSpec AxisModel AxisSpec VarOpsModel VarOpsSpec NumModel ReduceSpec StencilSpec ClimModel.
Import ListNotations.
Open Scope Z_scope.

(** the index permutation that sorts records of a common length by the first field, then the second, ... *)
Definition lexsort_ok (lexsort : list (list Z) -> list Z) : Prop := forall n rows, table n rows ->
  index_permutation (length rows) (lexsort rows) /\ forall s, TimeSearchModel.take rows (lexsort rows) = Some s -> TimeSearchSpec.sorted s.

(** the fields [k] of the [i]-th date of the time axis [t] *)
Definition record_of (k : mask) (t : taxis) (i : Z) : list Z := nth (Z.to_nat i) (records k t) [].

(** the fields that a grouping tells apart; those of them that the axis has stay *)
Definition tells_apart (g : grouping) : mask :=
  match g with
  | Clim => mkmask false true true true true true
  | Diurnal => mkmask false false false true true true
  | Daily => mkmask true true true false false false
  | Monthly => mkmask true true false false false false
  | Yearly => mkmask true false false false false false
  end.
Definition kept (g : grouping) (k : mask) : mask :=
  let f := tells_apart g in mkmask (my k && my f) (mm k && mm f) (md k && md f) (mh k && mh f) (mmi k && mmi f) (ms k && ms f).
(** the axis has the fields it takes *)
Definition can_group (g : grouping) (k : mask) : Prop :=
  some_field (kept g k) /\ match g with Daily => md k = true | Monthly => mm k = true | Yearly => my k = true | _ => True end.

(** [u] has, of the fields [k], each combination that occurs on [t], in increasing order *)
Definition groups (k : mask) (t u : taxis) : Prop :=
  t_class u = t_class t /\ t_cal u = t_cal t /\ t_mask u = k /\
  TimeSearchSpec.increasing (records k u) /\ forall r, In r (records k u) <-> In r (records k t).
(** the indices of the dates of [t] that agree with the [j]-th date of [u], in the fields that [u] has *)
Definition times_on (t u : taxis) (j : Z) : list Z :=
  filter (fun i => if list_eq_dec Z.eq_dec (record_of (t_mask u) t i) (record_of (t_mask u) u j) then true else false) (arange 0 (zlen (t_dates t)) 1).

(** [x] has exactly one time axis, number [ti] *)
Definition time_axis (x : var axis num) (ti : nat) (t : taxis) : Prop :=
  nth_error (var_axes x) ti = Some (Time t) /\ forall i s, nth_error (var_axes x) i = Some (Time s) -> i = ti.

(** [y] has a time axis with the groups; each of its elements stands in the relation [P] to the elements of [x] at the times of the group *)
Definition climatology (env : axenv) (g : grouping) (x : var axis num) (D : list Z -> num) (ti : nat) (t : taxis) (y : var axis num)
  (P : list num -> num -> Prop) : Prop :=
  exists u D', good_axis (Time u) /\ groups (kept g (t_mask t)) t u /\ var_axes y = set_at (var_axes x) ti (Time u) /\ computes env y D' /\
    forall q, position (var_shape y) q -> P (map (fun i => D (moved q ti i)) (times_on t u (nth ti q 0))) (D' q).

(** the mean of the values that are not NaN; NaN if there is none *)
Definition nan_mean (l : list num) (w : num) : Prop :=
  (not_nans l = [] /\ w = NaN) \/ (not_nans l <> [] /\ float_mean (not_nans l) w).

(** *** straight lines *)
(** the [i]-th time of [t] in seconds: the value of the axis times the length of its unit *)
Definition time_seconds (t : taxis) (i : Z) : Qc := Q2Qc (nth (Z.to_nat i) (t_vals t) 0%Q * inject_Z (seconds_in (t_units t))).
(** the sum of the squared distances of the points [l] from the line a + b s *)
Definition squared_error (l : list (Qc * Qc)) (a b : Qc) : Qc :=
  total (map (fun '(s, f) => ((f - (a + b * s)) * (f - (a + b * s)))%Qc) l).
(** [a] + [b] s is the only line with the least squared error *)
Definition best_line (l : list (Qc * Qc)) (a b : Qc) : Prop :=
  forall a' b', (squared_error l a b <= squared_error l a' b')%Qc /\ (squared_error l a' b' = squared_error l a b -> a' = a /\ b' = b).
