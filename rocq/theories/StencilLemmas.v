(** Arithmetic for C35, C36 and C37. *)
From Coq Require Import ZArith List Bool Lia QArith_base Qreduction Qcanon Field.
From Verif Require Import SortSpec IndexModel IndexSpec ArrModel ReduceSpec NumModel StencilModel StencilSpec DerivProofs IntgrProofs.
Import ListNotations.
Open Scope Z_scope.

(** *** sums *)
Lemma total_app l l' : total (l ++ l') = (total l + total l')%Qc.
Proof. induction l as [|x l IH]; cbn [app total fold_right]; [unfold total; ring|]. fold (total (l ++ l')) (total l). rewrite IH. ring. Qed.
Lemma total_rev l : total (rev l) = total l.
Proof. induction l as [|x l IH]; [reflexivity|]. cbn [rev]. rewrite total_app, IH. cbn [total fold_right]. fold (total l). ring. Qed.
Lemma sum_to_first n f : sum_to (S n) f = (f O + sum_to n (fun k => f (S k)))%Qc.
Proof. unfold sum_to. cbn [seq map total fold_right]. f_equal. rewrite <- seq_shift, map_map. reflexivity. Qed.
Lemma sum_to_last n f : sum_to (S n) f = (sum_to n f + f n)%Qc.
Proof. unfold sum_to. rewrite seq_S, map_app, total_app. cbn [map total fold_right]. rewrite Nat.add_0_l. ring. Qed.
Lemma sum_to_ext n f g : (forall k, (k < n)%nat -> f k = g k) -> sum_to n f = sum_to n g.
Proof. intros H. unfold sum_to. f_equal. apply map_ext_in. intros k Hk. apply in_seq in Hk. apply H. lia. Qed.
Lemma sum_to_minus n f g : sum_to n (fun k => (f k - g k)%Qc) = (sum_to n f - sum_to n g)%Qc.
Proof. induction n as [|n IH]; [unfold sum_to; cbn [seq map total fold_right]; ring|]. rewrite !sum_to_last, IH. ring. Qed.

Lemma of_Z_mul a b : of_Z (a * b) = (of_Z a * of_Z b)%Qc.
Proof. unfold of_Z. apply Qc_is_canon. cbn [this Qcmult Q2Qc]. rewrite !Qred_correct. unfold inject_Z, Qmult. reflexivity. Qed.
Lemma of_Z_add a b : of_Z (a + b) = (of_Z a + of_Z b)%Qc.
Proof. unfold of_Z. apply Qc_is_canon. cbn [this Qcplus Q2Qc]. rewrite !Qred_correct. rewrite inject_Z_plus. reflexivity. Qed.
Lemma of_Z_opp a : of_Z (- a) = (- of_Z a)%Qc.
Proof. unfold of_Z. apply Qc_is_canon. cbn [this Qcopp Q2Qc]. rewrite !Qred_correct. reflexivity. Qed.
Lemma of_Z_1 : of_Z 1 = 1%Qc.
Proof. apply Qc_is_canon. reflexivity. Qed.
Lemma of_Z_0 : of_Z 0 = 0%Qc.
Proof. apply Qc_is_canon. reflexivity. Qed.
Lemma binomial_0 n : binomial n 0 = 1.
Proof. now destruct n. Qed.
Lemma binomial_beyond n : forall k, (n < k)%nat -> binomial n k = 0.
Proof. induction n as [|n IH]; intros [|k] H; try lia; [reflexivity|]. cbn [binomial]. rewrite !IH by lia. reflexivity. Qed.
Lemma sign_S k : sign (S k) = - sign k.
Proof. unfold sign. rewrite Nat.even_succ, <- Nat.negb_even. now destruct (Nat.even k). Qed.

Lemma difference_binomial n f : forall i, difference Qcminus n f i = sum_to (S n) (fun k => (of_Z (sign (n - k) * binomial n k) * f (i + Z.of_nat k)%Z)%Qc).
Proof.
  induction n as [|n IH]; intros i.
  - rewrite sum_to_last. cbn [difference]. unfold sum_to. cbn [seq map total fold_right]. rewrite Nat.sub_diag, binomial_0, Z.add_0_r.
    change (sign 0 * 1) with 1. rewrite of_Z_1. change (Q2Qc 0) with 0%Qc. ring.
  - cbn [difference]. rewrite !IH.
    rewrite (sum_to_first (S n)). rewrite Nat.sub_0_r, binomial_0, Z.mul_1_r, Z.add_0_r, sign_S, of_Z_opp.
    rewrite (sum_to_first n (fun k => (of_Z (sign (n - k) * binomial n k) * f (i + Z.of_nat k)%Z)%Qc)).
    rewrite Nat.sub_0_r, binomial_0, Z.mul_1_r, Z.add_0_r.
    assert (sum_to n (fun k => (of_Z (sign (n - S k) * binomial n (S k)) * f (i + Z.of_nat (S k))%Z)%Qc) =
            sum_to (S n) (fun k => (- (of_Z (sign (n - k) * binomial n (S k)) * f (i + Z.of_nat (S k))%Z))%Qc)) as ->.
    { rewrite sum_to_last. rewrite (binomial_beyond n (S n)) by lia. rewrite Z.mul_0_r, of_Z_0.
      rewrite (sum_to_ext n (fun k => (- (of_Z (sign (n - k) * binomial n (S k)) * f (i + Z.of_nat (S k))%Z))%Qc) (fun k => (of_Z (sign (n - S k) * binomial n (S k)) * f (i + Z.of_nat (S k))%Z)%Qc)); [ring|].
      intros k Hk. replace (n - k)%nat with (S (n - S k)) by lia. rewrite sign_S, Z.mul_opp_l, of_Z_opp. ring. }
    assert (sum_to (S n) (fun k => (of_Z (sign (S n - S k) * binomial (S n) (S k)) * f (i + Z.of_nat (S k))%Z)%Qc) =
            (sum_to (S n) (fun k => (of_Z (sign (n - k) * binomial n k) * f (i + 1 + Z.of_nat k)%Z))%Qc -
             sum_to (S n) (fun k => (- (of_Z (sign (n - k) * binomial n (S k)) * f (i + Z.of_nat (S k))%Z)))%Qc)%Qc) as ->.
    { rewrite <- sum_to_minus. apply sum_to_ext. intros k Hk. cbn [Nat.sub binomial]. replace (i + 1 + Z.of_nat k) with (i + Z.of_nat (S k)) by lia.
      rewrite Z.mul_add_distr_l, of_Z_add. ring. }
    ring.
Qed.

(** *** finite numbers *)
Lemma sub_fin a b : sub (Fin a) (Fin b) = Fin (a - b)%Qc.
Proof. reflexivity. Qed.
Lemma div_fin a b : b <> 0%Qc -> div (Fin a) (Fin b) = Fin (a / b)%Qc.
Proof. intros H. cbn [div]. unfold qc_eqb. destruct (b ?= Q2Qc 0)%Qc eqn:E; [apply Qceq_alt in E; contradiction|reflexivity|reflexivity]. Qed.
Lemma minus_nonzero a b : a <> b -> (a - b)%Qc <> 0%Qc.
Proof. intros H E. apply H. replace a with ((a - b) + b)%Qc by ring. rewrite E. ring. Qed.
Lemma slope_exact s c x1 x2 : x1 <> x2 -> div (sub (Fin (s * x2 + c)%Qc) (Fin (s * x1 + c)%Qc)) (sub (Fin x2) (Fin x1)) = Fin s.
Proof.
  intros H. rewrite !sub_fin. pose proof (minus_nonzero x2 x1 ltac:(congruence)). rewrite div_fin by assumption. f_equal. field. assumption.
Qed.
Lemma quadratic_exact a b c x0 x1 x2 : x0 <> x2 -> (x2 - x1 = x1 - x0)%Qc ->
  div (sub (Fin (a * x2 * x2 + b * x2 + c)%Qc) (Fin (a * x0 * x0 + b * x0 + c)%Qc)) (sub (Fin x2) (Fin x0)) = Fin (a * x1 + a * x1 + b)%Qc.
Proof.
  intros H E. rewrite !sub_fin. pose proof (minus_nonzero x2 x0 ltac:(congruence)). rewrite div_fin by assumption. f_equal.
  assert (x1 + x1 = x2 + x0)%Qc as E2. { transitivity (x1 + x0 + (x1 - x0))%Qc; [ring|]. rewrite <- E. ring. }
  transitivity (a * (x1 + x1) + b)%Qc; [|ring]. rewrite E2. field. assumption.
Qed.
Lemma two_fin : num_of_Z 2 = Fin (1 + 1)%Qc.
Proof. unfold num_of_Z. f_equal; apply Qc_is_canon; reflexivity. Qed.
Lemma second_exact a b c x0 x1 x2 : x0 <> x1 -> x1 <> x2 -> x0 <> x2 ->
  second_difference (Fin (a * x0 * x0 + b * x0 + c)%Qc) (Fin (a * x1 * x1 + b * x1 + c)%Qc) (Fin (a * x2 * x2 + b * x2 + c)%Qc) (Fin x0) (Fin x1) (Fin x2) = Fin (a + a)%Qc.
Proof.
  intros H1 H2 H3. unfold second_difference. rewrite !sub_fin, two_fin. cbn [mul].
  pose proof (minus_nonzero x2 x1 ltac:(congruence)) as N1. pose proof (minus_nonzero x1 x0 ltac:(congruence)) as N2. pose proof (minus_nonzero x2 x0 ltac:(congruence)) as N3.
  rewrite div_fin. 2: { intros E. apply Qcmult_integral in E as [E|E]; [apply Qcmult_integral in E as [E|E]|]; contradiction. }
  cbn [mul add]. f_equal. field. auto.
Qed.

(** *** sums of finite numbers *)
Lemma plus_all_fin {A} v (t : A -> Qc) l : plus_all (Fin v) (map (fun k => Fin (t k)) l) = Fin (v + total (map t l))%Qc.
Proof.
  revert v. induction l as [|k l IH]; intros v; unfold plus_all; cbn [map fold_left].
  - f_equal. unfold total. cbn [map fold_right]. change (Q2Qc 0) with 0%Qc. ring.
  - cbn [add]. fold (plus_all (Fin (v + t k)%Qc) (map (fun k => Fin (t k)) l)). rewrite IH. f_equal. unfold total. cbn [map fold_right]. ring.
Qed.
Lemma telescope (A : Z -> Qc) i n : i <= n -> total (map (fun k => (A (k + 1)%Z - A k)%Qc) (arange i n 1)) = (A n - A i)%Qc.
Proof.
  intros H. replace n with (i + Z.of_nat (Z.to_nat (n - i))) by lia. generalize (Z.to_nat (n - i)) as m. intros m. induction m as [|m IH].
  - rewrite arange_none by lia. unfold total. cbn [map fold_right]. replace (i + Z.of_nat 0) with i by lia. change (Q2Qc 0) with 0%Qc. ring.
  - replace (i + Z.of_nat (S m)) with (i + Z.of_nat m + 1) by lia. rewrite arange_snoc by lia. rewrite map_app, total_app, IH. unfold total. cbn [map fold_right]. change (Q2Qc 0) with 0%Qc. ring.
Qed.
Lemma integral_telescope back n v t A i : 0 <= i < n -> (forall k, 0 <= k < n - 1 -> t k = Fin (A (k + 1)%Z - A k)%Qc) ->
  integral back n (Fin v) t i = Fin (v + (if back then A (n - 1)%Z - A i else A i - A 0%Z))%Qc.
Proof.
  intros Hi Ht. unfold integral. destruct back.
  - rewrite (plus_all_ext _ t (fun k => Fin (A (k + 1)%Z - A k)%Qc)) by (intros k Hk; apply in_rev, In_arange1 in Hk; apply Ht; lia).
    rewrite plus_all_fin, map_rev, total_rev, telescope by lia. reflexivity.
  - rewrite (plus_all_ext _ t (fun k => Fin (A (k + 1)%Z - A k)%Qc)) by (intros k Hk; apply In_arange1 in Hk; apply Ht; lia).
    rewrite plus_all_fin, telescope by lia. reflexivity.
Qed.
Lemma half_half : (Q2Qc (1 # 2) + Q2Qc (1 # 2) = 1)%Qc.
Proof. apply Qc_is_canon. reflexivity. Qed.
Lemma trapz_linear s c x0 x1 : mul (mul half (sub (Fin x1) (Fin x0))) (add (Fin (s * x0 + c)%Qc) (Fin (s * x1 + c)%Qc)) =
  Fin ((Q2Qc (1 # 2) * s * x1 * x1 + c * x1) - (Q2Qc (1 # 2) * s * x0 * x0 + c * x0))%Qc.
Proof.
  rewrite sub_fin. unfold half. cbn [mul add]. f_equal. set (h := Q2Qc (1 # 2)). pose proof half_half as Hh. fold h in Hh.
  transitivity (h * s * x1 * x1 + (h + h) * c * x1 - (h * s * x0 * x0 + (h + h) * c * x0))%Qc; [ring|]. rewrite Hh. ring.
Qed.
