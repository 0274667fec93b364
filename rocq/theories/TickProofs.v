(** Proofs about the tick generators of TickModel.v. *)
From Coq Require Import ZArith List Bool Lia ZifyBool QArith_base Qround Qabs QArith Lqa.
From Verif Require Import CalModel CalSpec CalProofs CalPyProofs StencilModel TickModel.
Import ListNotations.
Open Scope Z_scope.

(** *** a grid of instants *)
Section Axis.
Context (c : cal) (s : pdate) (u : unit) (Hs : good_start c (get_dates s)).
Notation base := (A c (get_dates s)).
Notation uf := (unitfactor u).
(** the value of an absolute second, and the absolute second (a rational) of a value *)
Definition value (n : Z) : Q := (n - base) # uf.
Definition instant (v : Q) : Q := (v * inject_Z (Zpos uf) + inject_Z base)%Q.

Lemma uf_pos : (0 < inject_Z (Zpos uf))%Q.
Proof. reflexivity. Qed.
Lemma value_instant n : (instant (value n) == inject_Z n)%Q.
Proof. unfold instant, value, Qeq, Qplus, Qmult, inject_Z; cbn [Qnum Qden]. lia. Qed.
Lemma value_inj n m : value n = value m -> n = m.
Proof. unfold value. intros H. injection H. lia. Qed.
Lemma value_lt n m : (value n < value m)%Q <-> n < m.
Proof. unfold value, Qlt. cbn [Qnum Qden]. nia. Qed.
Lemma value_le_inst v n : (v <= value n)%Q <-> (instant v <= inject_Z n)%Q.
Proof.
  rewrite <- value_instant. unfold instant. split; intros H.
  - apply Qplus_le_l. apply Qmult_le_compat_r; [exact H|discriminate].
  - apply Qplus_le_l in H. apply Qmult_le_r in H; [exact H|reflexivity].
Qed.
Lemma value_lt_inst v n : (value n < v)%Q <-> (inject_Z n < instant v)%Q.
Proof. split; intros H; apply Qnot_le_lt; intros H'; [apply value_le_inst in H'|apply value_le_inst in H']; lra. Qed.
Lemma qgtb_value v n : qgtb v (value n) = true <-> (inject_Z n < instant v)%Q.
Proof.
  unfold qgtb. rewrite negb_true_iff, <- value_lt_inst. split; intros H.
  - apply Qnot_le_lt. intros H'. apply Qle_bool_iff in H'. congruence.
  - apply not_true_is_false. rewrite Qle_bool_iff. lra.
Qed.
Lemma value_diff n m : ((value m - value n) * inject_Z (Zpos uf) == inject_Z (m - n))%Q.
Proof.
  transitivity (instant (value m) - instant (value n))%Q; [unfold instant; ring|]. rewrite !value_instant. unfold Zminus. rewrite inject_Z_plus, inject_Z_opp. ring.
Qed.
Lemma dav_inst p : good_date c (get_dates p) -> date_as_val c s u p = Some (value (A c (get_dates p))).
Proof. intros H. unfold date_as_val. rewrite (dav_A c _ _ Hs H). reflexivity. Qed.
Lemma vad_value n : exists x, val_as_date c s u true (value n) = Some (full x) /\ valid_date c x /\ A c x = n.
Proof.
  unfold val_as_date, value. rewrite seconds_exact. destruct (vad_A c (get_dates s) (n - base) Hs) as (x & -> & Hx & E). exists x. split; [reflexivity|]. split; [exact Hx|lia].
Qed.
Lemma vad_inst v : exists x, val_as_date c s u true v = Some (full x) /\ valid_date c x /\ (instant v - (1 # 2) <= inject_Z (A c x) <= instant v + (1 # 2))%Q.
Proof.
  unfold val_as_date. destruct (vad_A c (get_dates s) (round_half_even (v * inject_Z (Zpos uf))) Hs) as (x & -> & Hx & E). exists x. split; [reflexivity|]. split; [exact Hx|].
  rewrite E, inject_Z_plus. pose proof (round_near (v * inject_Z (Zpos uf))) as R. apply Qabs_Qle_condition in R. unfold instant. split; lra.
Qed.
Lemma wrap_value p n : date_as_val c s u p = Some (value n) -> exists x, wrapdate c s u true p = Some (full x) /\ valid_date c x /\ A c x = n.
Proof. intros H. unfold wrapdate. rewrite H. apply vad_value. Qed.

(** the rounds of a loop over the instants g k *)
Section Grid.
Context (g : Z -> Z) (Hg : forall k, g k < g (k + 1)) (prior : Q -> option pdate) (next : Q -> option Q).
Lemma grid_mono_nat n k : g k + Z.of_nat n <= g (k + Z.of_nat n).
Proof. induction n as [|n IH]; [rewrite !Z.add_0_r; lia|]. pose proof (Hg (k + Z.of_nat n)). replace (k + Z.of_nat (S n)) with (k + Z.of_nat n + 1) by lia. lia. Qed.
Lemma grid_gap j k : j <= k -> k - j <= g k - g j.
Proof. intros H. pose proof (grid_mono_nat (Z.to_nat (k - j)) j) as E. rewrite Z2Nat.id in E by lia. replace (j + (k - j)) with k in E by lia. lia. Qed.
Lemma grid_lt j k : g j < g k <-> j < k.
Proof. split; intros H; [destruct (Z_le_gt_dec k j) as [H'|]; [pose proof (grid_gap k j H'); lia|lia]|]. pose proof (grid_gap j k); lia. Qed.

Definition priors : Prop := forall v, exists k p, prior v = Some p /\ date_as_val c s u p = Some (value (g k)) /\ (inject_Z (g k) < instant v)%Q /\ (instant v <= inject_Z (g (k + 1)))%Q.
Definition nexts : Prop := forall k, next (value (g k)) = Some (value (g (k + 1))).

Fixpoint from (k : Z) (n : nat) : list Q := match n with O => [] | S n => value (g (k + 1)) :: from (k + 1) n end.
Lemma from_In k n t : In t (from k n) <-> exists j, k < j <= k + Z.of_nat n /\ t = value (g j).
Proof.
  revert k. induction n as [|n IH]; intros k; cbn [from In]; [split; [intros []|intros (j & H & _); lia]|]. rewrite IH. split.
  - intros [<-|(j & H & ->)]; [exists (k + 1); split; [lia|reflexivity]|exists j; split; [lia|reflexivity]].
  - intros (j & H & ->). destruct (Z.eq_dec j (k + 1)) as [->|]; [left; reflexivity|right; exists j; split; [lia|reflexivity]].
Qed.
Lemma from_length k n : length (from k n) = n.
Proof. revert k. induction n as [|n IH]; intros k; cbn; [reflexivity|rewrite IH; reflexivity]. Qed.
Lemma from_nth k n j : (j < n)%nat -> nth_error (from k n) j = Some (value (g (k + 1 + Z.of_nat j))).
Proof.
  revert k j. induction n as [|n IH]; intros k j H; [lia|]. cbn [from]. destruct j as [|j]; cbn [nth_error]; [rewrite Z.add_0_r; reflexivity|].
  rewrite IH by lia. do 3 f_equal. lia.
Qed.
Lemma loop_from (Hn : nexts) n fuel k : (n <= fuel)%nat -> tick_loop fuel next (value (g (k + Z.of_nat n))) (value (g k)) = Some (from k n).
Proof.
  revert fuel k. induction n as [|n IH]; intros fuel k Hf.
  - rewrite Z.add_0_r. destruct fuel as [|f]; cbn [tick_loop]; (replace (qltb (value (g k)) (value (g k))) with false; [reflexivity|]);
      unfold qltb; symmetry; apply negb_false_iff; apply Qle_bool_iff; lra.
  - destruct fuel as [|fuel]; [lia|]. cbn [tick_loop]. replace (qltb (value (g k)) (value (g (k + Z.of_nat (S n))))) with true.
    + rewrite (Hn k). cbn [bind]. replace (k + Z.of_nat (S n)) with (k + 1 + Z.of_nat n) by lia. rewrite (IH fuel (k + 1)) by lia. reflexivity.
    + symmetry. unfold qltb. apply negb_true_iff. apply not_true_is_false. rewrite Qle_bool_iff. assert (value (g k) < value (g (k + Z.of_nat (S n))))%Q by (apply value_lt, grid_lt; lia). lra.
Qed.
Lemma loop_none f k j : j <= k -> tick_loop f next (value (g j)) (value (g k)) = Some [].
Proof.
  intros H. assert (qltb (value (g k)) (value (g j)) = false) as E.
  { unfold qltb. apply negb_false_iff. apply Qle_bool_iff. destruct (Z.eq_dec j k) as [->|]; [lra|]. apply Qlt_le_weak. apply value_lt, grid_lt. lia. }
  destruct f; cbn [tick_loop]; rewrite E; reflexivity.
Qed.

(** the ticks between two values, and the indices of the ticks before each of them *)
Lemma ticks_spec (Hp : priors) (Hn : nexts) vmin vmax : exists k1 k2 d1 d2 l,
  prior vmin = Some d1 /\ prior vmax = Some d2 /\ date_as_val c s u d1 = Some (value (g k1)) /\ date_as_val c s u d2 = Some (value (g k2)) /\
  ticks c s u prior next vmin vmax = Some l /\ l = from k1 (Z.to_nat (k2 - k1)) /\ ((vmin <= vmax)%Q -> k1 <= k2) /\
  forall t, In t l <-> exists k, t = value (g k) /\ (vmin <= t < vmax)%Q.
Proof.
  destruct (Hp vmin) as (k1 & d1 & P1 & D1 & L1 & U1). destruct (Hp vmax) as (k2 & d2 & P2 & D2 & L2 & U2). exists k1, k2, d1, d2, (from k1 (Z.to_nat (k2 - k1))).
  split; [exact P1|]. split; [exact P2|]. split; [exact D1|]. split; [exact D2|]. split; [|split; [reflexivity|split]].
  - unfold ticks. rewrite P1, P2. cbn [bind]. rewrite D1, D2. cbn [bind]. destruct (Z_le_gt_dec k1 k2) as [H|H].
    + replace (g k2) with (g (k1 + Z.of_nat (Z.to_nat (k2 - k1)))) at 2 by (f_equal; lia). apply (loop_from Hn).
      apply Z2Nat.inj_le; [lia| |].
      * pose proof (grid_gap k1 k2 H). apply Z.le_trans with (g k2 - g k1); [lia|]. replace (g k2 - g k1) with (Qceiling (inject_Z (g k2 - g k1))) by apply Qceiling_Z. apply Qceiling_resp_le.
        rewrite value_diff. apply Qle_refl.
      * pose proof (grid_gap k1 k2 H). apply Z.le_trans with (g k2 - g k1); [lia|]. replace (g k2 - g k1) with (Qceiling (inject_Z (g k2 - g k1))) by apply Qceiling_Z. apply Qceiling_resp_le.
        rewrite value_diff. apply Qle_refl.
    + rewrite loop_none by lia. replace (Z.to_nat (k2 - k1)) with 0%nat by lia. reflexivity.
  - intros Hv. apply value_le_inst in U2 as U2'. assert (g k1 < g (k2 + 1)) as Hlt; [|apply (proj1 (grid_lt _ _)) in Hlt; lia].
    apply value_lt. apply value_lt_inst in L1. lra.
  - intros t. rewrite from_In. split.
    + intros (j & Hj & ->). exists j. split; [reflexivity|]. split.
      * apply value_le_inst. eapply Qle_trans; [exact U1|]. rewrite <- Zle_Qle. destruct (Z.eq_dec (k1 + 1) j) as [->|]; [lia|]. apply Z.lt_le_incl, grid_lt. lia.
      * apply value_lt_inst. eapply Qle_lt_trans; [|exact L2]. rewrite <- Zle_Qle. destruct (Z.eq_dec j k2) as [->|]; [lia|]. apply Z.lt_le_incl, grid_lt. lia.
    + intros (k & -> & H1 & H2). exists k. split; [|reflexivity]. apply value_le_inst in H1. apply value_lt_inst in H2.
      assert (g k1 < g k) as E1 by (rewrite Zlt_Qlt; lra). assert (g k < g (k2 + 1)) as E2 by (rewrite Zlt_Qlt; lra). apply (proj1 (grid_lt _ _)) in E1. apply (proj1 (grid_lt _ _)) in E2. lia.
Qed.
End Grid.
End Axis.
