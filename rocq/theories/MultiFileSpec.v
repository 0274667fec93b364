(** Vocabulary for variables that are spread over many files. *)
From Coq Require Import ZArith List Bool QArith_base Qcanon.
From Verif Require Import CalModel CalSpec TimeSearchModel SortSpec IndexModel IndexSpec ArrModel ViewModel AxisModel AxisSpec ReduceSpec ReduceModel ConcatSpec ClimSpec NumModel.
Import ListNotations.
Open Scope Z_scope.

(** the date of the [i]-th element of a time axis; fields that the axis does not have are those of the beginning of year 0 *)
Definition moment (t : taxis) (i : Z) : date := get_dates (mask_date (t_mask t) (nth (Z.to_nat i) (t_dates t) date0)).

(** the files are in the order of their dates *)
Definition in_order (f : taxis) : Prop := forall i j, 0 <= i < j -> j < zlen (t_dates f) -> earlier (moment f i) (moment f j).

(** [k] is the last file that does not begin after [d] *)
Definition own_file (f : taxis) (d : date) (k : Z) : Prop :=
  0 <= k < zlen (t_dates f) /\ ~ earlier d (moment f k) /\ forall j, k < j < zlen (t_dates f) -> earlier d (moment f j).

(** element [i] of [t] and element [j] of [c] are the same time *)
Definition same_time (t c : taxis) (i j : Z) : Prop :=
  0 <= i < zlen (t_dates t) /\ 0 <= j < zlen (t_dates c) /\ record_of (t_mask t) t i = record_of (t_mask t) c j.

(** What a file holds: the times [c], and for each of them data [F]; positions are those on the axes [A] of the whole variable,
    but with the index within [c] in place [ti].  [x] is the variable in the file: either it has the time axis [c] in that
    place, or it has no time axis and stands for the date [k] of the file. *)
Definition in_file (env : axenv) (A : list axis) (ti : nat) (t faxis : taxis) (k : Z) (x : var axis num) (c : taxis) (F : list Z -> num) : Prop :=
  good_axis (Time c) /\ t_class c = t_class t /\ t_mask c = t_mask t /\
  ((responds env x F /\ nth_error (var_axes x) ti = Some (Time c) /\ matching ti A (var_axes x)) \/
   (exists D, responds env x D /\ (ti <= length (var_axes x))%nat /\ matching ti A (insert_at (var_axes x) ti (Time t)) /\
      sliced (Time faxis) [k] (Time c) /\ forall p, F p = D (remove_at p ti))).

(** A variable on the axes [A], whose times [t] (axis number [ti], the only time axis) are spread over [files]; the dates of the files are [faxis];
    file [k], if it can be read, holds [contents k]. *)
Definition archive (env : axenv) (A : list axis) (ti : nat) (t : taxis) (files : list (option (var axis num))) (faxis : taxis) (contents : Z -> taxis * (list Z -> num)) : Prop :=
  separate A /\ nth_error A ti = Some (Time t) /\ (forall i s, nth_error A i = Some (Time s) -> i = ti) /\ good_axis (Time t) /\
  good_axis (Time faxis) /\ t_cal t = t_cal faxis /\ length files = length (t_dates faxis) /\
  forall k x, elem files k (Some x) -> in_file env A ti t faxis k x (fst (contents k)) (snd (contents k)).
(** file [k] can be read and holds, as element [j], the [i]-th time of [t] *)
Definition holds_time (t : taxis) (files : list (option (var axis num))) (contents : Z -> taxis * (list Z -> num)) (k i j : Z) : Prop :=
  (exists x, elem files k (Some x)) /\ same_time t (fst (contents k)) i j.
