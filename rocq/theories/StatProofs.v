(** Exact statistics. *)
From Coq Require Import ZArith List Bool Lia QArith_base QArith Qreduction Qcanon Field.
From Verif Require Import IndexModel IndexSpec IndexProofs ArrModel NumModel NumProofs ReduceModel ReduceSpec ReduceKinds.
Import ListNotations.
Open Scope Z_scope.

Notation qz z := (Q2Qc (inject_Z z)).
Lemma qz_add a b : qz (a + b) = (qz a + qz b)%Qc.
Proof. apply Qc_is_canon. unfold Qcplus, Q2Qc, this. rewrite !Qred_correct, inject_Z_plus. reflexivity. Qed.
Lemma qz_mul a b : qz (a * b) = (qz a * qz b)%Qc.
Proof. apply Qc_is_canon. unfold Qcmult, Q2Qc, this. rewrite !Qred_correct, inject_Z_mult. reflexivity. Qed.
Lemma qz_inj a b : qz a = qz b -> a = b.
Proof. intros H. apply Q2Qc_eq_iff in H. unfold Qeq, inject_Z in H. cbn in H. lia. Qed.
Lemma qz_le a b : a <= b -> (qz a <= qz b)%Qc.
Proof. intros H. unfold Qcle, Q2Qc, this. rewrite !Qred_correct. unfold Qle, inject_Z. cbn. lia. Qed.
Lemma qz_lt a b : a < b -> (qz a < qz b)%Qc.
Proof. intros H. apply Qcnot_le_lt. intros K. unfold Qcle, Q2Qc, this in K. rewrite !Qred_correct in K. unfold Qle, inject_Z in K. cbn in K. lia. Qed.
Lemma qz_ltb a b : qc_ltb (qz a) (qz b) = (a <? b).
Proof.
  destruct (Z.ltb_spec a b); [apply qc_ltb_lt; now apply qz_lt|]. apply qc_ltb_ge. now apply qz_le.
Qed.
Lemma qc_eqb_eq p q : qc_eqb p q = true <-> p = q.
Proof. unfold qc_eqb. rewrite Qceq_alt. destruct (p ?= q)%Qc; split; congruence. Qed.
Lemma qc_eqb_neq p q : p <> q -> qc_eqb p q = false.
Proof. intros H. apply not_true_iff_false. now rewrite qc_eqb_eq. Qed.
Lemma div_fin p q : q <> Q2Qc 0 -> div (Fin p) (Fin q) = Fin (p / q)%Qc.
Proof. intros H. cbn. now rewrite qc_eqb_neq. Qed.
Lemma sub_fin p q : sub (Fin p) (Fin q) = Fin (p - q)%Qc.
Proof. reflexivity. Qed.

Lemma count_cons q l : count (q :: l) = (Q2Qc 1 + count l)%Qc.
Proof. unfold count. rewrite zlen_cons. rewrite Z.add_comm. rewrite qz_add. apply Qcplus_comm || reflexivity. Qed.
Lemma count_ne l : l <> [] -> count l <> Q2Qc 0.
Proof. intros H E. apply (qz_inj (zlen l) 0) in E. destruct l; [congruence|]. rewrite zlen_cons in E. pose proof (zlen_nonneg l). lia. Qed.

Lemma deviations m l : total (squares (map (fun q => q - m)%Qc l)) = (total (squares l) - (m + m) * total l + count l * (m * m))%Qc.
Proof.
  induction l as [|q l IH]; [cbn; change (count []) with (Q2Qc 0); ring|].
  rewrite count_cons. cbn [map squares total fold_right] in *. fold (squares (map (fun q => q - m)%Qc l)) in *. fold (squares l) in *.
  fold (total (squares (map (fun q => q - m)%Qc l))) in *. fold (total (squares l)) in *. fold (total l) in *. rewrite IH. ring.
Qed.
Lemma variance_eq l : l <> [] ->
  variance l = ((total (squares l) - count l * (average l * average l)) / (count l - Q2Qc 1))%Qc.
Proof.
  intros H. unfold variance. rewrite deviations. unfold Qcdiv. f_equal. unfold average. pose proof (count_ne l H). field. assumption.
Qed.
Lemma variance_eq' l : l <> [] ->
  variance l = ((total (squares l) - total l * total l / count l) / (count l - Q2Qc 1))%Qc.
Proof.
  intros H. rewrite variance_eq by exact H. unfold Qcdiv. f_equal. unfold average. pose proof (count_ne l H). field. assumption.
Qed.
Lemma squares_nonneg l : (Q2Qc 0 <= total (squares l))%Qc.
Proof.
  induction l as [|q l IH]; [apply Qcle_refl|]. cbn [squares map total fold_right]. fold (squares l). fold (total (squares l)).
  rewrite <- (Qcplus_0_r (Q2Qc 0)). apply Qcplus_le_compat; [|exact IH].
  destruct (Qclt_le_dec q (Q2Qc 0)) as [H|H].
  - assert (q * q = (- q) * (- q))%Qc as -> by ring. rewrite <- (Qcmult_0_l (- q)). apply Qcmult_le_compat_r; [|apply Qclt_le_weak in H; now apply Qcopp_le_compat in H].
    apply Qclt_le_weak in H. apply Qcopp_le_compat in H. exact H.
  - rewrite <- (Qcmult_0_l q). now apply Qcmult_le_compat_r.
Qed.
Lemma count_minus l : (2 <= length l)%nat -> (Q2Qc 0 < count l - Q2Qc 1)%Qc.
Proof.
  intros H. unfold count. assert (qz (zlen l) - Q2Qc 1 = qz (zlen l - 1))%Qc as ->.
  { replace (zlen l) with (zlen l - 1 + 1) at 1 by lia. rewrite qz_add. change (qz 1) with (Q2Qc 1). ring. }
  apply (qz_lt 0). unfold zlen. lia.
Qed.
Lemma Qc_div_nonneg p q : (Q2Qc 0 <= p)%Qc -> (Q2Qc 0 < q)%Qc -> (Q2Qc 0 <= p / q)%Qc.
Proof.
  intros Hp Hq. apply Qcnot_lt_le. intros K. apply (Qcmult_lt_compat_r _ _ q Hq) in K.
  rewrite Qcmult_0_l in K. assert (p / q * q = p)%Qc as E. { field. intros ->. now apply (Qclt_not_eq _ _ Hq). }
  rewrite E in K. now apply (Qclt_not_le _ _ K).
Qed.
Lemma variance_nonneg l : (2 <= length l)%nat -> (Q2Qc 0 <= variance l)%Qc.
Proof. intros H. apply Qc_div_nonneg; [apply squares_nonneg|now apply count_minus]. Qed.

(** *** the model's formulas on finite data *)
Lemma np_sum_squares qs : np_sum (map (fun v => mul v v) (map Fin qs)) = Fin (total (squares qs)).
Proof. rewrite map_map. unfold squares. rewrite <- (map_map (fun q => (q * q)%Qc) Fin). apply np_sum_fin. Qed.

Lemma mean_fin qs : qs <> [] -> div (np_sum (map Fin qs)) (num_of_Z (zlen qs)) = Fin (average qs).
Proof. intros H. rewrite np_sum_fin. unfold num_of_Z. rewrite div_fin by (now apply count_ne). reflexivity. Qed.

Lemma fin_length (qs : list Qc) : (if Nat.leb 2 (length qs) then zlen qs <> 1 else qs = [] \/ zlen qs = 1).
Proof. destruct qs as [|a [|b qs]]; cbn [length Nat.leb]; auto. unfold zlen. cbn [length]. lia. Qed.

Lemma variance_fin qs : qs <> [] ->
  (let N := num_of_Z (zlen qs) in let m := div (np_sum (map Fin qs)) N in
   div (sub (np_sum (map (fun v => mul v v) (map Fin qs))) (mul N (mul m m))) (sub N (num_of_Z 1)))
  = if Nat.leb 2 (length qs) then Fin (variance qs) else NaN.
Proof.
  intros H. cbv zeta. rewrite mean_fin, np_sum_squares by exact H. unfold num_of_Z. cbn [mul]. rewrite !sub_fin.
  pose proof (fin_length qs) as Hl. destruct (Nat.leb 2 (length qs)) eqn:E.
  - rewrite div_fin; [now rewrite variance_eq|]. apply Nat.leb_le in E. pose proof (count_minus qs E) as Hc. intros K. unfold count in Hc. change (qz 1) with (Q2Qc 1) in K. rewrite K in Hc. now apply (Qclt_not_eq _ _ Hc).
  - destruct Hl as [->|Hl]; [congruence|]. destruct qs as [|q [|? ?]]; [congruence| |rewrite zlen_cons, zlen_cons in Hl; pose proof (zlen_nonneg l); lia].
    assert (total (squares [q]) - qz (zlen [q]) * (average [q] * average [q]) = Q2Qc 0)%Qc as ->.
    { unfold average, count. cbn [total squares map fold_right]. change (qz (zlen [q])) with (Q2Qc 1). field. discriminate. }
    reflexivity.
Qed.

(** *** finite values and NaNs *)
Definition measured (l : list num) : Prop := ~ In PInf l /\ ~ In MInf l.
Lemma measured_cons v l : measured (v :: l) -> measured l.
Proof. intros [H1 H2]. split; intros K; [apply H1|apply H2]; now right. Qed.
Lemma measured_summable l : measured l -> summable l.
Proof. intros [H _] [K _]. auto. Qed.
Lemma numbers_Fin qs : numbers (map Fin qs) = qs.
Proof. induction qs as [|q qs IH]; [reflexivity|]. unfold numbers in *. cbn [map flat_map app]. now rewrite IH. Qed.
Lemma nansum_measured l : measured l -> np_nansum l = Fin (total (numbers l)).
Proof.
  induction l as [|v l IH]; intros H; [reflexivity|]. change (np_nansum (v :: l)) with (add (nan_to_zero v) (np_nansum l)).
  rewrite IH by (eapply measured_cons, H). destruct v; try (exfalso; destruct H as [H1 H2]; first [apply H1; now left | apply H2; now left]); [reflexivity|].
  cbn [nan_to_zero is_nan numbers flat_map app]. apply add_0_l.
Qed.
Lemma nansumsq_measured l : measured l -> np_nansum (map (fun v => mul v v) l) = Fin (total (squares (numbers l))).
Proof.
  induction l as [|v l IH]; intros H; [reflexivity|]. cbn [map]. change (np_nansum (?a :: ?b)) with (add (nan_to_zero a) (np_nansum b)).
  rewrite IH by (eapply measured_cons, H). destruct v; try (exfalso; destruct H as [H1 H2]; first [apply H1; now left | apply H2; now left]); [reflexivity|].
  cbn [mul nan_to_zero is_nan numbers flat_map app]. apply add_0_l.
Qed.
Lemma count_measured l : measured l -> np_nansum (map not_nan l) = Fin (count (numbers l)).
Proof.
  induction l as [|v l IH]; intros H; [reflexivity|]. cbn [map]. change (np_nansum (?a :: ?b)) with (add (nan_to_zero a) (np_nansum b)).
  rewrite IH by (eapply measured_cons, H). destruct v; try (exfalso; destruct H as [H1 H2]; first [apply H1; now left | apply H2; now left]).
  - cbn [not_nan is_nan nan_to_zero num_of_Z numbers flat_map app]. rewrite count_cons. reflexivity.
  - cbn [not_nan is_nan nan_to_zero numbers flat_map app]. apply add_0_l.
Qed.
Lemma square_summable l : summable (map (fun v => mul v v) l).
Proof.
  intros [_ H]. apply in_map_iff in H as (v & E & _). destruct v; discriminate.
Qed.
Lemma not_nan_summable l : summable (map not_nan l).
Proof. intros [H _]. apply in_map_iff in H as (v & E & _). destruct v; discriminate. Qed.

Lemma count_ltb k qs : ltb (num_of_Z k) (Fin (count qs)) = (k <? zlen qs).
Proof. apply qz_ltb. Qed.
Lemma nanmean_measured l : measured l ->
  statistic 1 average l (if ltb zero (np_nansum (map not_nan l)) then div (np_nansum l) (np_nansum (map not_nan l)) else NaN).
Proof.
  intros H. unfold statistic. rewrite count_measured by exact H. rewrite nansum_measured by exact H. change zero with (num_of_Z 0). rewrite count_ltb.
  destruct (numbers l) as [|q qs]; [reflexivity|]. rewrite div_fin by (apply count_ne; discriminate).
  destruct (Z.ltb_spec 0 (zlen (q :: qs))) as [_|K]; [reflexivity|]. rewrite zlen_cons in K. pose proof (zlen_nonneg qs). lia.
Qed.
Lemma nanvariance_measured l : measured l ->
  statistic 2 variance l (let s := np_nansum l in let s2 := np_nansum (map (fun v => mul v v) l) in let n := np_nansum (map not_nan l) in
     if ltb (num_of_Z 1) n then div (sub s2 (div (mul s s) n)) (sub n (num_of_Z 1)) else NaN).
Proof.
  intros H. unfold statistic. cbv zeta. rewrite count_measured by exact H. rewrite nansumsq_measured by exact H. rewrite nansum_measured by exact H. rewrite count_ltb.
  destruct (numbers l) as [|q [|q' qs]]; [reflexivity|reflexivity|]. set (t := q :: q' :: qs).
  assert (2 <= length t)%nat as Ht by (cbn; lia). rewrite (proj2 (Nat.leb_le 2 (length t)) Ht).
  destruct (Z.ltb_spec 1 (zlen t)) as [_|K]; [|unfold zlen in K; lia].
  cbn [mul]. rewrite div_fin by (apply count_ne; discriminate). unfold num_of_Z. rewrite !sub_fin. rewrite div_fin.
  - now rewrite variance_eq' by discriminate.
  - intros K. pose proof (count_minus t Ht) as Hc. change (qz 1) with (Q2Qc 1) in K. rewrite K in Hc. now apply (Qclt_not_eq _ _ Hc).
Qed.

Lemma sd_of_fin sqrt q : (Q2Qc 0 <= q)%Qc -> sd_of sqrt (Fin q) = sqrt (Fin q).
Proof.
  intros H. unfold sd_of. cbn [ltb zero is_nan orb]. destruct (qc_ltb (Q2Qc 0) q) eqn:E; [reflexivity|]. cbn [orb]. apply qc_ltb_ge in E.
  pose proof (Qcle_antisym _ _ H E) as K. now subst q.
Qed.
