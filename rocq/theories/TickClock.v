(** Proofs about the tick generators: the generators one by one. *)
From Coq Require Import ZArith List Bool Lia ZifyBool QArith_base Qround Qabs QArith Lqa Znumtheory.
From Verif Require Import CalModel CalSpec CalProofs CalPyProofs StencilModel TickModel TickProofs.
Import ListNotations.
Open Scope Z_scope.

(** *** a fine grid h and the points h (mult * k) *)
Section Fine.
Context (h : Z -> Z) (Hh : forall k, h k < h (k + 1)).
Lemma fine_next q a (T : Q) : h q <= a < h (q + 1) -> (T - (1 # 2) <= inject_Z a <= T + (1 # 2))%Q -> (inject_Z (h q) < T)%Q ->
  (inject_Z (h q) < T)%Q /\ (T <= inject_Z (h (q + 1)))%Q.
Proof.
  intros [H1 H2] [H3 H4] H. split; [exact H|]. assert (inject_Z a + 1 <= inject_Z (h (q + 1)))%Q.
  { change 1%Q with (inject_Z 1). rewrite <- inject_Z_plus, <- Zle_Qle. lia. } lra.
Qed.
Lemma fine_same q a (T : Q) : h q <= a < h (q + 1) -> (T - (1 # 2) <= inject_Z a <= T + (1 # 2))%Q -> ~ (inject_Z (h q) < T)%Q ->
  a = h q /\ (inject_Z (h (q - 1)) < T)%Q /\ (T <= inject_Z (h q))%Q.
Proof.
  intros [H1 H2] [H3 H4] H. assert (T <= inject_Z (h q))%Q as HT by lra. assert (a = h q) as E.
  { destruct (Z.eq_dec a (h q)) as [|Hne]; [assumption|]. exfalso. assert (inject_Z (h q) + 1 <= inject_Z a)%Q by (change 1%Q with (inject_Z 1); rewrite <- inject_Z_plus, <- Zle_Qle; lia). lra. }
  split; [exact E|]. split; [|exact HT]. specialize (Hh (q - 1)). replace (q - 1 + 1) with q in Hh by lia.
  assert (inject_Z (h (q - 1)) + 1 <= inject_Z a)%Q by (change 1%Q with (inject_Z 1); rewrite <- inject_Z_plus, <- Zle_Qle; lia). lra.
Qed.
Lemma coarse e mult (T : Q) : 0 < mult -> (inject_Z (h (e - 1)) < T)%Q -> (T <= inject_Z (h e))%Q ->
  (inject_Z (h (mult * ((e - 1) / mult))) < T)%Q /\ (T <= inject_Z (h (mult * ((e - 1) / mult + 1))))%Q.
Proof.
  intros Hm H1 H2. pose proof (Z.mul_div_le (e - 1) mult Hm) as E1. pose proof (Z.mul_succ_div_gt (e - 1) mult Hm) as E2. split.
  - eapply Qle_lt_trans; [|exact H1]. rewrite <- Zle_Qle. pose proof (grid_gap h Hh _ _ E1). lia.
  - eapply Qle_trans; [exact H2|]. rewrite <- Zle_Qle. assert (e <= mult * ((e - 1) / mult + 1)) as E3 by lia. pose proof (grid_gap h Hh _ _ E3). lia.
Qed.
Lemma coarse_grid mult : 0 < mult -> forall k, h (mult * k) < h (mult * (k + 1)).
Proof. intros Hm k. apply (grid_lt h Hh). nia. Qed.
End Fine.

(** *** the fields of a date *)
Lemma A_fields c y m d h mi s : A c (mkdate y m d h mi s) = A c (mkdate y m 1 0 0 0) + (d - 1) * 86400 + h * 3600 + mi * 60 + s.
Proof. destruct c; cbn [A]; unfold A_std, A_365, A_360, A_yl, tod; cbn [year month day hour minute second]; lia. Qed.
Lemma A_days c y m : exists D, A c (mkdate y m 1 0 0 0) = 86400 * D.
Proof.
  destruct c; cbn [A]; unfold A_std, A_365, A_360, A_yl, tod; cbn [year month day hour minute second]; eexists.
  - rewrite Z.mul_comm, !Z.add_0_r. reflexivity.
  - rewrite Z.mul_comm, !Z.add_0_r. reflexivity.
  - rewrite Z.mul_comm, !Z.add_0_r. reflexivity.
  - instantiate (1 := 1). reflexivity.
Qed.

Definition W (k : clock) : Z := match k with CHour => 3600 | CMinute => 60 | CSecond => 1 end.
Definition M (k : clock) : Z := match k with CHour => 24 | CMinute => 60 | CSecond => 60 end.
Definition low_fields (k : clock) (x : date) : Prop := match k with CHour => minute x = 0 /\ second x = 0 | CMinute => second x = 0 | CSecond => True end.

Lemma clock_facts c k x : valid_date c x -> exists q r, A c x = W k * q + r /\ 0 <= r < W k /\ 0 <= count_of k (full x) < M k /\ (M k | q - count_of k (full x)) /\
  (low_fields k x <-> r = 0) /\
  (forall n, A c (get_dates (pack k (full x) n)) = W k * (q - count_of k (full x) + n)) /\
  A c (get_dates (pack_up k (full x))) = W k * (q - count_of k (full x) + M k) /\
  (forall n, A c (get_dates (bump k (full x) n)) = A c x + W k * n) /\
  A c (get_dates (bump_up k (full x))) = A c x + W k * (M k - count_of k (full x)).
Proof.
  intros [Ht _]. destruct x as [y m d h mi s]. destruct (A_days c y m) as (D & HD). unfold valid_time in Ht. cbn [hour minute second] in Ht.
  destruct k; cbn [W M count_of low_fields pack pack_up bump bump_up full with_hour with_minute with_second with_day fields pyear pmonth pday phour pminute psecond dflt get_dates year month day hour minute second].
  - exists (24 * (D + d - 1) + h), (mi * 60 + s). rewrite (A_fields c y m d h mi s), HD. repeat split; try lia; try (exists (D + d - 1); lia); intros; try lia; unfold get_dates, fields, with_hour, with_minute, with_second, with_day, full; cbn [pyear pmonth pday phour pminute psecond dflt year month day hour minute second]; rewrite A_fields, HD; lia.
  - exists (1440 * (D + d - 1) + 60 * h + mi), s. rewrite (A_fields c y m d h mi s), HD. repeat split; try lia; try (exists (24 * (D + d - 1) + h); lia); intros; try lia; unfold get_dates, fields, with_hour, with_minute, with_second, with_day, full; cbn [pyear pmonth pday phour pminute psecond dflt year month day hour minute second]; rewrite A_fields, HD; lia.
  - exists (86400 * (D + d - 1) + 3600 * h + 60 * mi + s), 0. rewrite (A_fields c y m d h mi s), HD. repeat split; try lia; try (exists (1440 * (D + d - 1) + 60 * h + mi); lia); intros; try lia; unfold get_dates, fields, with_hour, with_minute, with_second, with_day, full; cbn [pyear pmonth pday phour pminute psecond dflt year month day hour minute second]; rewrite A_fields, HD; lia.
Qed.
Lemma clock_good c k x n : valid_date c x -> good_date c (get_dates (pack k (full x) n)) /\ good_date c (get_dates (pack_up k (full x))) /\
  good_start c (get_dates (bump k (full x) n)) /\ good_date c (get_dates (bump_up k (full x))).
Proof.
  intros H. pose proof (valid_good c x H) as G. assert (good_start c x) as G'.
  { destruct c; cbn [good_start good_date] in *; auto. destruct H as [_ H]. exact H. }
  destruct x as [y m d h mi s]. destruct k, c; cbn in *; auto.
Qed.
Lemma good_start_full c x : valid_date c x -> good_start c (get_dates (full x)).
Proof.
  intros H. pose proof (valid_good c x H) as G. destruct x as [y m d h mi s]. destruct c; cbn in *; auto. destruct H as [_ H]. exact H.
Qed.
Lemma diff_inst c u d d1 : good_start c (get_dates d) -> good_date c (get_dates d1) -> date_diff c u d d1 = Some ((A c (get_dates d1) - A c (get_dates d)) # unitfactor u).
Proof. intros H1 H2. unfold date_diff, date_as_val. rewrite (dav_A c _ _ H1 H2). reflexivity. Qed.
Lemma clock_factor k : Zpos (unitfactor (clock_unit k)) = W k.
Proof. destruct k; reflexivity. Qed.
Lemma half_less k n mult : qltb ((W k * n) # unitfactor (clock_unit k)) (inject_Z mult / 2) = (2 * n <? mult).
Proof.
  unfold qltb. pose proof (clock_factor k) as E. assert ((W k * n) # unitfactor (clock_unit k) == inject_Z n)%Q as ->.
  { unfold Qeq. cbn [Qnum Qden inject_Z]. rewrite E. lia. }
  destruct (Z.ltb_spec (2 * n) mult) as [H|H].
  - apply negb_true_iff, not_true_is_false. rewrite Qle_bool_iff. intros H'. assert (inject_Z mult <= inject_Z (2 * n))%Q as Hc; [|rewrite <- Zle_Qle in Hc; lia].
    rewrite inject_Z_mult. change (inject_Z 2) with 2%Q. setoid_replace (inject_Z mult) with (2 * (inject_Z mult / 2))%Q by field. lra.
  - apply negb_false_iff. rewrite Qle_bool_iff. assert (inject_Z mult <= inject_Z (2 * n))%Q as Hc by (rewrite <- Zle_Qle; lia).
    rewrite inject_Z_mult in Hc. change (inject_Z 2) with 2%Q in Hc. setoid_replace (inject_Z mult) with (2 * (inject_Z mult / 2))%Q in Hc by field. lra.
Qed.

Section Clock.
Context (c : cal) (s : pdate) (u : unit) (Hs : good_start c (get_dates s)) (k : clock) (mult : Z) (Hm : 0 < mult) (Hd : (mult | M k)).
Definition clock_grid (j : Z) : Z := W k * (mult * j).
Lemma W_pos : 0 < W k.
Proof. destruct k; cbn; lia. Qed.
Lemma fine_clock : forall q, W k * q < W k * (q + 1).
Proof. pose proof W_pos. intros q. lia. Qed.
Lemma clock_increasing : forall j, clock_grid j < clock_grid (j + 1).
Proof. pose proof W_pos. intros j. unfold clock_grid. nia. Qed.

Lemma clock_priors : priors c s u clock_grid (clock_prior c s u k mult).
Proof.
  intros v. unfold clock_prior. destruct (vad_inst c s u Hs v) as (x & -> & Hx & Hn). cbn [bind].
  destruct (clock_facts c k x Hx) as (q & r & Ea & Hr & Hc & _ & _ & Hp & _). destruct (clock_good c k x (count_of k (full x)) Hx) as (G1 & _).
  rewrite (dav_inst c s u Hs _ G1), Hp. cbn [bind]. replace (q - count_of k (full x) + count_of k (full x)) with q by lia.
  assert (exists x' e, (if qgtb v (value c s u (W k * q)) then wrapdate c s u true (pack k (full x) (count_of k (full x) + 1)) else Some (full x)) = Some (full x') /\ valid_date c x' /\ A c x' = W k * e /\
    (inject_Z (W k * (e - 1)) < instant c s u v)%Q /\ (instant c s u v <= inject_Z (W k * e))%Q) as (x' & e & -> & Hx' & Ea' & L & U).
  { destruct (qgtb v (value c s u (W k * q))) eqn:Eq.
    - apply qgtb_value in Eq. destruct (clock_good c k x (count_of k (full x) + 1) Hx) as (G2 & _).
      destruct (wrap_value c s u Hs (pack k (full x) (count_of k (full x) + 1)) (W k * (q + 1))) as (x' & Ew & Hx' & Ea').
      { rewrite (dav_inst c s u Hs _ G2), Hp. do 3 f_equal. lia. }
      exists x', (q + 1). split; [exact Ew|]. split; [exact Hx'|]. split; [exact Ea'|]. replace (q + 1 - 1) with q by lia.
      apply (fine_next (fun q => W k * q) fine_clock q (A c x)); [lia|exact Hn|exact Eq].
    - destruct (fine_same (fun q => W k * q) fine_clock q (A c x) (instant c s u v)) as (E & L & U); [lia|exact Hn|rewrite <- qgtb_value, Eq; discriminate|].
      exists x, q. auto. }
  cbn [bind]. destruct (clock_facts c k x' Hx') as (q' & r' & Ea2 & Hr' & Hc' & Hdiv & _ & Hp' & Hup & _). assert (q' = e) as -> by (pose proof W_pos; nia). clear Ea2 Hr' r'.
  set (f := count_of k (full x')) in *. destruct (clock_good c k x' ((f - 1) / mult * mult) Hx') as (G3 & G4 & _).
  assert (e - f + (f - 1) / mult * mult = mult * ((e - 1) / mult)) as En.
  { destruct Hdiv as (j & Hj). destruct Hd as (w & Hw). replace (e - 1) with (f - 1 + j * w * mult) by nia. rewrite Z.div_add by lia. nia. }
  destruct (wrap_value c s u Hs (pack k (full x') ((f - 1) / mult * mult)) (W k * (mult * ((e - 1) / mult)))) as (d & Ed & Vd & Ad).
  { rewrite (dav_inst c s u Hs _ G3), Hp', En. reflexivity. }
  destruct (wrap_value c s u Hs (pack_up k (full x')) (W k * (e - f + M k))) as (d1 & Ed1 & Vd1 & Ad1).
  { rewrite (dav_inst c s u Hs _ G4), Hup. reflexivity. }
  rewrite Ed, Ed1. cbn [bind]. rewrite (diff_inst c _ (full d) (full d1) (good_start_full c d Vd) ltac:(rewrite get_full; apply valid_good; exact Vd1)), !get_full, Ad, Ad1.
  rewrite <- Z.mul_sub_distr_l. cbn [bind]. rewrite half_less.
  assert (mult <= e - f + M k - mult * ((e - 1) / mult)) as Hge.
  { destruct Hdiv as (j & Hj). destruct Hd as (w & Hw). replace (e - f + M k) with (mult * (w * j + w)) by nia.
    assert (mult * ((e - 1) / mult) < mult * (w * j + w)) as Hlt by (pose proof (Z.mul_div_le (e - 1) mult Hm); nia). apply Z.mul_lt_mono_pos_l in Hlt; [|exact Hm]. nia. }
  destruct (2 * (e - f + M k - mult * ((e - 1) / mult)) <? mult) eqn:El; [lia|].
  exists ((e - 1) / mult), (full d). split; [reflexivity|]. split.
  - rewrite (dav_inst c s u Hs (full d) ltac:(rewrite get_full; apply valid_good; exact Vd)), get_full, Ad. reflexivity.
  - unfold clock_grid. exact (coarse (fun q => W k * q) fine_clock e mult _ Hm L U).
Qed.
Lemma clock_nexts : nexts c s u clock_grid (clock_next c s u k mult).
Proof.
  intros j. unfold clock_next. destruct (vad_value c s u Hs (clock_grid j)) as (x & -> & Hx & Ea). cbn [bind].
  destruct (clock_facts c k x Hx) as (q & r & Ea' & Hr & Hc & Hdiv & _ & _ & _ & Hb & Hbu). assert (q = mult * j) as -> by (unfold clock_grid in Ea; pose proof W_pos; nia).
  destruct (clock_good c k x mult Hx) as (_ & _ & G3 & G4). rewrite (diff_inst c _ _ _ G3 G4), Hb, Hbu. cbn [bind].
  replace (A c x + W k * (M k - count_of k (full x)) - (A c x + W k * mult)) with (W k * (M k - count_of k (full x) - mult)) by lia. rewrite half_less.
  assert (date_as_val c s u (bump k (full x) mult) = Some (value c s u (clock_grid (j + 1)))) as E1.
  { rewrite dav_inst; [|exact Hs|apply start_good; exact G3]. rewrite Hb, Ea. unfold clock_grid. do 2 f_equal. lia. }
  destruct (Z.ltb_spec (2 * (M k - count_of k (full x) - mult)) mult) as [H|H]; [|exact E1].
  rewrite (dav_inst c s u Hs _ G4), Hbu, Ea. do 2 f_equal. unfold clock_grid. assert (M k - count_of k (full x) = mult) as ->; [|lia].
  destruct Hdiv as (i & Hi). destruct Hd as (w & Hw). assert (M k - count_of k (full x) = mult * (i * w - j + w)) as E2 by nia. rewrite E2 in *. assert (0 < i * w - j + w) by nia. assert (i * w - j + w < 2) by nia. nia.
Qed.
End Clock.
