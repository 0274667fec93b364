(** Algebra of the values of NumModel. *)
From Coq Require Import ZArith List Bool QArith_base QArith Qreduction Qcanon Permutation Lia.
From Verif Require Import NumModel.
Import ListNotations.

Lemma add_comm x y : add x y = add y x.
Proof. destruct x, y; cbn; try reflexivity. f_equal. apply Qcplus_comm. Qed.
Lemma add_assoc x y z : add x (add y z) = add (add x y) z.
Proof. destruct x, y, z; cbn; try reflexivity. f_equal. apply Qcplus_assoc. Qed.
Lemma add_0_r x : add x zero = x.
Proof. destruct x; cbn; try reflexivity. f_equal. apply Qcplus_0_r. Qed.
Lemma add_0_l x : add zero x = x.
Proof. rewrite add_comm. apply add_0_r. Qed.

Lemma qc_ltb_lt x y : qc_ltb x y = true <-> (x < y)%Qc.
Proof. unfold qc_ltb. rewrite Qclt_alt. destruct (x ?= y)%Qc; split; intros; congruence. Qed.
Lemma qc_ltb_ge x y : qc_ltb x y = false <-> (y <= x)%Qc.
Proof.
  rewrite <- not_true_iff_false, qc_ltb_lt. split; [apply Qcnot_lt_le|apply Qcle_not_lt].
Qed.

(** the order on the values other than NaN *)
Definition le (x y : num) : Prop := is_nan x = false /\ is_nan y = false /\ ltb y x = false.
Lemma le_refl x : is_nan x = false -> le x x.
Proof. intros H. split; [exact H|]. split; [exact H|]. destruct x; try reflexivity. cbn. apply qc_ltb_ge, Qcle_refl. Qed.
Lemma le_trans x y z : le x y -> le y z -> le x z.
Proof.
  intros (A & B & C) (D & E & F). split; [exact A|]. split; [exact E|]. destruct x, y, z; cbn in *; try reflexivity; try discriminate.
  rewrite qc_ltb_ge in *. eapply Qcle_trans; eassumption.
Qed.
Lemma le_antisym x y : le x y -> le y x -> x = y.
Proof.
  intros (A & B & C) (_ & _ & F). destruct x, y; cbn in *; try reflexivity; try discriminate. rewrite qc_ltb_ge in *. f_equal. now apply Qcle_antisym.
Qed.
Lemma le_total x y : is_nan x = false -> is_nan y = false -> le x y \/ le y x.
Proof.
  intros A B. destruct (ltb y x) eqn:E; [right|left; repeat split; assumption]. repeat split; auto.
  destruct x, y; cbn in *; try reflexivity; try discriminate. apply qc_ltb_ge. apply qc_ltb_lt in E. now apply Qclt_le_weak.
Qed.

Lemma nan_case x : x = NaN \/ is_nan x = false.
Proof. destruct x; auto. Qed.
Lemma minimum_nan_l x : minimum NaN x = NaN. Proof. reflexivity. Qed.
Lemma minimum_nan_r x : minimum x NaN = NaN. Proof. destruct x; reflexivity. Qed.
Lemma minimum_spec x y : is_nan x = false -> is_nan y = false ->
  is_nan (minimum x y) = false /\ le (minimum x y) x /\ le (minimum x y) y /\ (minimum x y = x \/ minimum x y = y).
Proof.
  intros A B. unfold minimum. rewrite A, B. cbn [orb]. destruct (ltb y x) eqn:E.
  - split; [exact B|]. split; [|split; [now apply le_refl|auto]]. repeat split; auto.
    destruct x, y; cbn in *; try reflexivity; try discriminate. apply qc_ltb_ge. apply qc_ltb_lt in E. now apply Qclt_le_weak.
  - split; [exact A|]. split; [now apply le_refl|]. split; [|auto]. repeat split; auto.
Qed.
Lemma minimum_unique x y m : is_nan x = false -> is_nan y = false -> le m x -> le m y -> (m = x \/ m = y) -> m = minimum x y.
Proof.
  intros A B H1 H2 H3. destruct (minimum_spec x y A B) as (_ & K1 & K2 & K3).
  apply le_antisym; [destruct K3 as [-> | ->]; assumption|destruct H3 as [-> | ->]; assumption].
Qed.
Lemma minimum_comm x y : minimum x y = minimum y x.
Proof.
  destruct (nan_case x) as [->|A]; [now rewrite minimum_nan_r|]. destruct (nan_case y) as [->|B]; [now rewrite minimum_nan_r|].
  destruct (minimum_spec x y A B) as (_ & K1 & K2 & K3). apply minimum_unique; tauto.
Qed.
Lemma minimum_assoc x y z : minimum x (minimum y z) = minimum (minimum x y) z.
Proof.
  destruct (nan_case x) as [->|A]; [reflexivity|]. destruct (nan_case y) as [->|B]; [now rewrite (minimum_nan_r x), !minimum_nan_l, minimum_nan_r|].
  destruct (nan_case z) as [->|C]; [now rewrite !minimum_nan_r|].
  destruct (minimum_spec x y A B) as (N1 & K1 & K2 & K3). destruct (minimum_spec y z B C) as (N2 & L1 & L2 & L3).
  destruct (minimum_spec x (minimum y z) A N2) as (N3 & M1 & M2 & M3).
  apply minimum_unique; auto.
  - destruct K3 as [-> | ->]; [exact M1|]. eapply le_trans; eassumption.
  - eapply le_trans; eassumption.
  - destruct M3 as [E|E]; rewrite E in *.
    + left. apply le_antisym; [|exact K1]. destruct K3 as [-> | ->]; [now apply le_refl|]. eapply le_trans; eassumption.
    + destruct L3 as [F|F]; rewrite F in *; [|now right]. left. apply le_antisym; [|exact K2]. destruct K3 as [-> | ->]; [exact M1|now apply le_refl].
Qed.
Lemma minimum_inf_r x : minimum x PInf = x.
Proof. destruct x; reflexivity. Qed.
Lemma minimum_inf_l x : minimum PInf x = x.
Proof. destruct x; reflexivity. Qed.

Lemma maximum_neg x y : maximum x y = neg (minimum (neg x) (neg y)).
Proof.
  destruct x, y; try reflexivity; try (cbn; now rewrite Qcopp_involutive). cbn. unfold maximum, minimum. cbn [is_nan orb neg ltb].
  assert (qc_ltb (- q0) (- q) = qc_ltb q q0)%Qc as ->.
  { destruct (qc_ltb q q0) eqn:E.
    - apply qc_ltb_lt in E. apply qc_ltb_lt. apply Qcnot_le_lt. intros K. apply Qcopp_le_compat in K. rewrite !Qcopp_involutive in K.
      now apply (Qclt_not_le _ _ E).
    - apply qc_ltb_ge in E. apply qc_ltb_ge. now apply Qcopp_le_compat. }
  destruct (qc_ltb q q0); cbn; now rewrite Qcopp_involutive.
Qed.
Lemma neg_neg x : neg (neg x) = x.
Proof. destruct x; cbn; try reflexivity. now rewrite Qcopp_involutive. Qed.
Lemma maximum_comm x y : maximum x y = maximum y x.
Proof. rewrite !maximum_neg. now rewrite minimum_comm. Qed.
Lemma maximum_assoc x y z : maximum x (maximum y z) = maximum (maximum x y) z.
Proof. rewrite !maximum_neg, !neg_neg. now rewrite minimum_assoc. Qed.
Lemma maximum_inf_r x : maximum x MInf = x.
Proof. destruct x; reflexivity. Qed.
Lemma maximum_inf_l x : maximum MInf x = x.
Proof. destruct x; reflexivity. Qed.

Lemma fmin_nan_r x : fmin x NaN = x.
Proof. destruct x; reflexivity. Qed.
Lemma fmin_nan_l x : fmin NaN x = x.
Proof. reflexivity. Qed.
Lemma fmin_min x y : is_nan x = false -> is_nan y = false -> fmin x y = minimum x y.
Proof. intros A B. unfold fmin. now rewrite A, B. Qed.
Lemma fmin_comm x y : fmin x y = fmin y x.
Proof.
  destruct (nan_case x) as [->|A]; [now rewrite fmin_nan_r|]. destruct (nan_case y) as [->|B]; [now rewrite fmin_nan_r|].
  rewrite !fmin_min by assumption. apply minimum_comm.
Qed.
Lemma fmin_assoc x y z : fmin x (fmin y z) = fmin (fmin x y) z.
Proof.
  destruct (nan_case x) as [->|A]; [reflexivity|]. destruct (nan_case y) as [->|B]; [now rewrite fmin_nan_r|].
  destruct (nan_case z) as [->|C]; [now rewrite !fmin_nan_r|].
  rewrite (fmin_min y z), (fmin_min x y), !fmin_min; try assumption; try apply minimum_assoc.
  - apply (minimum_spec x y A B).
  - apply (minimum_spec y z B C).
Qed.
Lemma fmax_nan_r x : fmax x NaN = x.
Proof. destruct x; reflexivity. Qed.
Lemma fmax_neg x y : fmax x y = neg (fmin (neg x) (neg y)).
Proof.
  destruct (nan_case x) as [->|A]; [cbn; now rewrite neg_neg|]. destruct (nan_case y) as [->|B]; [destruct x; try discriminate; cbn; rewrite ?Qcopp_involutive; reflexivity|].
  unfold fmax, fmin. assert (is_nan (neg x) = false) as -> by now destruct x. assert (is_nan (neg y) = false) as -> by now destruct y.
  rewrite A, B. apply maximum_neg.
Qed.
Lemma fmax_comm x y : fmax x y = fmax y x.
Proof. rewrite !fmax_neg. now rewrite fmin_comm. Qed.
Lemma fmax_assoc x y z : fmax x (fmax y z) = fmax (fmax x y) z.
Proof. rewrite !fmax_neg, !neg_neg. now rewrite fmin_assoc. Qed.

(** commutative monoids *)
Record cmonoid {A} (op : A -> A -> A) (e : A) : Prop := CMonoid {
  op_comm : forall x y, op x y = op y x;
  op_assoc : forall x y z, op x (op y z) = op (op x y) z;
  op_unit : forall x, op x e = x }.
Lemma add_monoid : cmonoid add zero.
Proof. split; [apply add_comm|apply add_assoc|apply add_0_r]. Qed.
Lemma min_monoid : cmonoid minimum PInf.
Proof. split; [apply minimum_comm|apply minimum_assoc|apply minimum_inf_r]. Qed.
Lemma max_monoid : cmonoid maximum MInf.
Proof. split; [apply maximum_comm|apply maximum_assoc|apply maximum_inf_r]. Qed.
Lemma fmin_monoid : cmonoid fmin NaN.
Proof. split; [apply fmin_comm|apply fmin_assoc|apply fmin_nan_r]. Qed.
Lemma fmax_monoid : cmonoid fmax NaN.
Proof. split; [apply fmax_comm|apply fmax_assoc|apply fmax_nan_r]. Qed.

Section Fold.
Context {A} (op : A -> A -> A) (e : A) (M : cmonoid op e).
Let total l := fold_right op e l.
Lemma op_unit_l x : op e x = x.
Proof. rewrite (op_comm _ _ M). apply (op_unit _ _ M). Qed.
Lemma total_app l l' : total (l ++ l') = op (total l) (total l').
Proof. unfold total. induction l as [|x l IH]; cbn; [now rewrite op_unit_l|]. rewrite IH. apply (op_assoc _ _ M). Qed.
Lemma total_concat ls : total (concat ls) = total (map total ls).
Proof. induction ls as [|l ls IH]; [reflexivity|]. cbn [concat map]. rewrite total_app, IH. reflexivity. Qed.
Lemma total_perm l l' : Permutation l l' -> total l = total l'.
Proof.
  unfold total. induction 1 as [|x l l' _ IH|x y l|l l' l'' _ IH1 _ IH2]; cbn; [reflexivity|now rewrite IH| |congruence].
  rewrite !(op_assoc _ _ M). f_equal. apply (op_comm _ _ M).
Qed.
End Fold.

(** sums of finite numbers *)
Definition qsum (l : list Qc) : Qc := fold_right Qcplus (Q2Qc 0) l.
Lemma np_sum_fin l : np_sum (map Fin l) = Fin (qsum l).
Proof. induction l as [|x l IH]; [reflexivity|]. cbn [map]. unfold np_sum in *. cbn [fold_right]. rewrite IH. reflexivity. Qed.
