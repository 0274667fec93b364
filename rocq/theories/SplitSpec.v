(** What it means to split a time axis into years and the rest. *)
From Coq Require Import ZArith List Bool.
From Verif Require Import CalModel TimeSearchModel IndexModel IndexSpec AxisModel AxisSpec ArrModel ViewModel ReduceModel VarOpsModel NumModel SortSpec ClimSpec.
Import ListNotations.
Open Scope Z_scope.

(** the date number [i] of a time axis *)
Definition date_at (t : taxis) (i : Z) : date := nth (Z.to_nat i) (t_dates t) date0.
(** the [i]-th date of [t] lies in the year [y], and agrees with the [j]-th date of [days] in the fields that [days] has *)
Definition on_day (t : taxis) (y : Z) (days : taxis) (j i : Z) : Prop :=
  0 <= i < IndexSpec.zlen (t_dates t) /\ year (date_at t i) = y /\ record_of (t_mask days) t i = record_of (t_mask days) days j.
(** the same fields, without the year *)
Definition other_fields (k : mask) : mask := mkmask false (mm k) (md k) (mh k) (mmi k) (ms k).

(** Of data [D] with the time axis [t] in place [ti] those with years [ys] in place [ti] and days in the next one: every element for which there is a date of [t],
    and NaN where there is none. *)
Definition splits (D : list Z -> num) (ti : nat) (t : taxis) (ys : list Z) (days : taxis) (s : list Z) (E : list Z -> num) : Prop :=
  forall q y, IndexSpec.position s q -> elem ys (nth ti q 0) y ->
    (forall i, on_day t y days (nth (S ti) q 0) i -> E q = D (set_at (remove_at q (S ti)) ti i)) /\
    ((forall i, ~ on_day t y days (nth (S ti) q 0) i) -> E q = NaN).
