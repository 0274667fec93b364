(** Vocabulary for the reductions. *)
From Coq Require Import ZArith List QArith_base Qcanon.
From Verif Require Import SortSpec IndexModel IndexSpec ArrModel ViewModel ViewSpec AxisModel AxisSpec VarOpsModel VarOpsSpec NumModel.
Import ListNotations.
Open Scope Z_scope.

(** an increasing selection of at least one element of an axis *)
Definition selection (a : axis) (l : list Z) : Prop := l <> [] /\ in_range (axis_len a) l /\ increasing l.

(** at least one element of an axis, in any order and any number of times, but not one and the same
    element several times *)
Definition various (l : list Z) : Prop := zlen l = 1 \/ exists i j, In i l /\ In j l /\ i <> j.
Definition choice (a : axis) (l : list Z) : Prop := in_range (axis_len a) l /\ various l.

(** The variable [x] delivers the data [D]: reading any such part of it returns the elements of [D]
    that were asked for. *)
Definition delivers {V} (env : axenv) (junk : list Z -> V) (x : var axis V) (D : list Z -> V) : Prop :=
  forall inds, Forall2 choice (var_axes x) inds ->
    exists r, ViewModel.get (axis_ops env) junk (view_of_inds (var_axes x) inds) x true true = Some r /\
              array_is r (map zlen inds) (fun p => D (gather inds p)).

(** The data source of [x], asked for parts given by increasing indices, answers with the elements of [D];
    the axes belong to different dimensions.  (Weaker than [getable]: nothing is said about
    requests for one element many times.) *)
Definition responds {V} (env : axenv) (x : var axis V) (D : list Z -> V) : Prop :=
  separate (var_axes x) /\
  match var_source x with
  | GetView f => forall inds, Forall2 selection (var_axes x) inds ->
      exists r, f (view_of_inds (var_axes x) inds) = Some r /\
                array_is r (map zlen inds) (fun p => D (gather inds p))
  | _ => represents (axis_ops env) x D
  end.

(** all the positions of an array of shape [s] *)
Definition positions (s : list Z) : list (list Z) := product (map (fun n => arange 0 n 1) s).

(** the positions of an array of shape [s] that are reduced to position [k] of the result, when the
    axes marked "gone" are reduced over *)
Definition fibre (gone : list bool) (s : list Z) (k : list Z) : list (list Z) :=
  filter (fun q => zlist_eqb (dropped gone q) k) (positions s).

(** the axes that are reduced over, by position *)
Definition reduced_flags (n : nat) (indices : list nat) : list bool :=
  map (fun i => existsb (Nat.eqb i) indices) (seq 0 n).

(** different axes of [x], at least one, none of them empty *)
Definition reducible {V} (x : var axis V) (indices : list nat) : Prop :=
  indices <> [] /\ NoDup indices /\
  Forall (fun i => exists a, nth_error (var_axes x) i = Some a /\ 0 < axis_len a) indices.

(** [y] has the axes of [x] that are not reduced over; all of its data can be read, and every element
    stands in the relation [P] to the elements of [x] that are reduced to it *)
Definition reduces_to {V U W} (env : axenv) (x : var axis V) (D : list Z -> U) (indices : list nat)
  (y : var axis W) (P : list U -> W -> Prop) : Prop :=
  let gone := reduced_flags (length (var_axes x)) indices in
  var_axes y = dropped gone (var_axes x) /\
  exists D', responds env y D' /\ (forall junk, delivers env junk y D') /\
    forall k, position (var_shape y) k -> P (map D (fibre gone (var_shape x) k)) (D' k).

(** the axes of the weights [w] are, in this order, the axes [along] of [x], which are among those reduced over *)
Definition weights_along {V} (x w : var axis V) (indices along : list nat) : Prop :=
  NoDup along /\ Forall2 (fun a i => In i indices /\ nth_error (var_axes x) i = Some a) (var_axes w) along.
(** the weight that belongs to position [q] of [x] *)
Definition weight_at {W} (along : list nat) (Dw : list Z -> W) (q : list Z) : W := Dw (map (fun i => nth i q 0) along).

(** *** the statistics *)

(** a smallest / greatest element; NaN if there is any *)
Definition least (l : list num) (w : num) : Prop :=
  (In NaN l /\ w = NaN) \/ (~ In NaN l /\ In w l /\ forall v, In v l -> ltb v w = false).
Definition greatest (l : list num) (w : num) : Prop :=
  (In NaN l /\ w = NaN) \/ (~ In NaN l /\ In w l /\ forall v, In v l -> ltb w v = false).
(** ... of the elements that are not NaN; NaN if there is none *)
Definition not_nans (l : list num) : list num := filter (fun v => negb (is_nan v)) l.
Definition nan_least (l : list num) (w : num) : Prop :=
  (not_nans l = [] /\ w = NaN) \/ (In w (not_nans l) /\ forall v, In v (not_nans l) -> ltb v w = false).
Definition nan_greatest (l : list num) (w : num) : Prop :=
  (not_nans l = [] /\ w = NaN) \/ (In w (not_nans l) /\ forall v, In v (not_nans l) -> ltb w v = false).

(** the sum of finitely many floating point values, from the left *)
Definition float_sum (l : list num) : num := fold_left add l zero.
(** both infinities do not occur together *)
Definition summable (l : list num) : Prop := ~ (In PInf l /\ In MInf l).

(** statistics of exact numbers *)
Definition count (l : list Qc) : Qc := Q2Qc (inject_Z (zlen l)).
Definition total (l : list Qc) : Qc := fold_right Qcplus (Q2Qc 0) l.
Definition average (l : list Qc) : Qc := (total l / count l)%Qc.
Definition squares (l : list Qc) : list Qc := map (fun q => (q * q)%Qc) l.
(** sum of the squared deviations from the mean over (n - 1) *)
Definition variance (l : list Qc) : Qc :=
  (total (squares (map (fun q => q - average l) l)) / (count l - Q2Qc 1))%Qc.
(** the finite values in [l] *)
Definition numbers (l : list num) : list Qc := flat_map (fun v => match v with Fin q => [q] | _ => [] end) l.
(** [w] is the given statistic of the finite values of [l] if there are at least [n] of them, NaN otherwise *)
Definition statistic (n : nat) (f : list Qc -> Qc) (l : list num) (w : num) : Prop :=
  w = if Nat.leb n (length (numbers l)) then Fin (f (numbers l)) else NaN.

(** the mean: the sum over the number of elements; exact for finite values *)
Definition float_mean (l : list num) (w : num) : Prop :=
  w = div (float_sum l) (num_of_Z (zlen l)) /\ forall qs, l = map Fin qs -> w = Fin (average qs).
(** for finite values: the variance, NaN if there is only one *)
Definition float_variance (l : list num) (w : num) : Prop :=
  forall qs, l = map Fin qs -> w = if Nat.leb 2 (length qs) then Fin (variance qs) else NaN.
Definition float_sd (sqrt : num -> num) (l : list num) (w : num) : Prop :=
  forall qs, l = map Fin qs -> w = if Nat.leb 2 (length qs) then sqrt (Fin (variance qs)) else NaN.

(** the same with weights: lists of (value, weight) *)
Definition times (vw : num * num) : num := mul (fst vw) (snd vw).
Definition fins (l : list (Qc * Qc)) : list (num * num) := map (fun '(q, u) => (Fin q, Fin u)) l.
Definition total_weight (l : list (Qc * Qc)) : Qc := total (map snd l).
Definition weighted_average (l : list (Qc * Qc)) : Qc := (total (map (fun '(q, u) => q * u)%Qc l) / total_weight l)%Qc.
(** sum of the weighted squared deviations from the weighted mean over (total weight - 1) *)
Definition weighted_variance (l : list (Qc * Qc)) : Qc :=
  (total (map (fun '(q, u) => u * ((q - weighted_average l) * (q - weighted_average l)))%Qc l) / (total_weight l - Q2Qc 1))%Qc.
Definition float_wmean (l : list (num * num)) (w : num) : Prop :=
  w = div (float_sum (map times l)) (float_sum (map snd l)) /\
  forall qs, l = fins qs -> total_weight qs <> Q2Qc 0 -> w = Fin (weighted_average qs).
Definition float_wvariance (l : list (num * num)) (w : num) : Prop :=
  forall qs, l = fins qs -> total_weight qs <> Q2Qc 0 -> total_weight qs <> Q2Qc 1 -> w = Fin (weighted_variance qs).
(** the pairs with a finite value *)
Definition wnumbers (l : list (num * num)) : list (Qc * Qc) :=
  flat_map (fun vw => match vw with (Fin q, Fin u) => [(q, u)] | _ => [] end) l.
(** the weighted mean of the finite values if their total weight is positive, NaN otherwise *)
Definition wnanmean_spec (l : list (num * num)) (w : num) : Prop :=
  w = if qc_ltb (Q2Qc 0) (total_weight (wnumbers l)) then Fin (weighted_average (wnumbers l)) else NaN.

(** *** argmax, argmin *)

(** position [t] along axis [index], at position [k] of the other axes *)
Definition along_axis (k : list Z) (index : nat) (t : Z) : list Z := firstn index k ++ t :: skipn index k.
(** [t] is the first position from 0 to n-1 where [f] is NaN or, if it is never NaN, the first where no
    other value is better *)
Definition first_best (better : num -> num -> bool) (n : Z) (f : Z -> num) (t : Z) : Prop :=
  0 <= t < n /\
  ((f t = NaN /\ forall u, 0 <= u < t -> f u <> NaN) \/
   ((forall u, 0 <= u < n -> f u <> NaN) /\
    (forall u, 0 <= u < n -> better (f u) (f t) = false) /\ (forall u, 0 <= u < t -> better (f t) (f u) = true))).
Definition greater (u v : num) : bool := ltb v u.
(** the variable [y] holds, at every position, the best position along axis [index] of [x] *)
Definition best_positions (env : axenv) (better : num -> num -> bool) (x : var axis num) (D : list Z -> num) (index : nat) (y : var axis Z) : Prop :=
  var_axes y = dropped (reduced_flags (length (var_axes x)) [index]) (var_axes x) /\
  exists D', responds env y D' /\ (forall junk, delivers env junk y D') /\
    forall k, position (var_shape y) k -> first_best better (nth index (var_shape x) 0) (fun t => D (along_axis k index t)) (D' k).
