(** Time axes made from text: C61. *)
From Coq Require Import ZArith List Bool QArith QArith_base Qround Ascii String Lia Lqa.
From Coq Require Import Floats.SpecFloat.
From Verif Require Import CalModel CalSpec CalProofs CalPyProofs TimeSearchModel IndexModel ArrModel AxisModel StencilModel CfModel CfSpec CfText CfProofs TickProofs
  DateTextModel DateTextSpec DateTextProofs DateTextProps ChunkProofs InterpView.
Import ListNotations.
Open Scope Z_scope.

Lemma ceiling_lt k q : k < Qceiling q <-> (inject_Z k < q)%Q.
Proof.
  split; intros H.
  - destruct (Qlt_le_dec (inject_Z k) q) as [L|L]; [exact L|]. exfalso. apply Qceiling_resp_le in L. rewrite Qceiling_Z in L. lia.
  - pose proof (Qle_ceiling q) as L. rewrite Zlt_Qlt. lra.
Qed.
Lemma arange_elem n step : (~ step == 0)%Q -> exists l, np_arange n step = Some l /\ (forall k, (k < List.length l)%nat <-> (inject_Z (Z.of_nat k) < n / step)%Q) /\
  l = map (fun k => inject_Z k * step)%Q (arange 0 (Z.of_nat (List.length l)) 1).
Proof.
  intros H. unfold np_arange. destruct (Qeq_bool step 0) eqn:E; [apply Qeq_bool_eq in E; contradiction|]. eexists. split; [reflexivity|].
  rewrite map_length, length_arange. split.
  - intros k. rewrite <- ceiling_lt. lia.
  - f_equal. destruct (Z.le_ge_cases 0 (Qceiling (n / step))) as [L|L]; [now rewrite Z2Nat.id|].
    replace (Z.to_nat (Qceiling (n / step))) with 0%nat by lia. cbn. unfold arange. cbn. replace (Z.to_nat _) with 0%nat; [reflexivity|]. rewrite Z.div_1_r. lia.
Qed.

Section Made.
Context (tcls : cal -> class) (c : cal) (u : CalModel.unit).
(** an axis made of whole seconds *)
Lemma made_axis (f : pdate) (zs : list Z) vals o : good_start c (get_dates f) ->
  Forall2 (fun v z => ((v + o) * inject_Z (Zpos (unitfactor u)) == inject_Z (z - A c (get_dates f)))%Q) vals zs ->
  exists t, made tcls c vals o u f = Some t /\ t_class t = tcls c /\ t_cal t = c /\ t_units t = u /\ t_start t = CalSpec.full (get_dates f) /\ t_mask t = all_fields /\
    List.length (t_dates t) = List.length vals /\ List.length (t_vals t) = List.length vals /\
    Forall2 (fun z d => valid_date c d /\ A c d = z) zs (t_dates t) /\ map (date_as_val c (t_start t) u) (map CalSpec.full (t_dates t)) = map Some (t_vals t).
Proof.
  intros Hf HF. unfold made, time_of_values. rewrite full_all.
  assert (Hf' : good_start c (get_dates (CalSpec.full (get_dates f)))) by (rewrite get_full; exact Hf).
  assert (P : exists ds, sequence (map (val_as_date c (CalSpec.full (get_dates f)) u false) (map (fun v => v + o)%Q vals)) = Some (map CalSpec.full ds) /\
     Forall2 (fun z d => valid_date c d /\ A c d = z) zs ds).
  { induction HF as [|v z vals zs Hv HF IH]; [exists []; split; [reflexivity | constructor]|].
    destruct IH as (ds & E & G). 
    assert (X : exists x, val_as_date c (CalSpec.full (get_dates f)) u false (v + o) = Some (CalSpec.full x) /\ valid_date c x /\ A c x = z).
    { rewrite val_full by (now rewrite get_full). unfold val_as_date. rewrite get_full. rewrite (round_exact _ _ Hv).
      destruct (vad_A c (get_dates f) (z - A c (get_dates f)) Hf) as (x & Ex & Vx & Ax). rewrite Ex. exists x. split; [reflexivity|]. split; [exact Vx | lia]. }
    destruct X as (x & Ex & Vx & Ax). exists (x :: ds). split; [|constructor; auto]. cbn [map sequence]. rewrite Ex, E. reflexivity. }
  destruct P as (ds & E & G). rewrite E. unfold bind at 1. cbv zeta beta.
  assert (I : map get_dates (map CalSpec.full ds) = ds) by (rewrite map_map; rewrite <- (map_id ds) at 2; apply map_ext; intros; apply get_full). rewrite I.
  assert (V : Forall (valid_date c) ds) by (clear -G; induction G as [|z d zs ds [H _] _ IH]; constructor; auto).
  assert (W : sequence (map (axis_value c (CalSpec.full (get_dates f)) u all_fields) ds) = Some (map (fun d => (A c d - A c (get_dates f)) # unitfactor u) ds)).
  { apply sequence_map. intros d Hd. unfold axis_value. rewrite (full_all d). unfold date_as_val. rewrite !get_full.
    rewrite (dav_A c (get_dates f) d Hf) by (apply valid_good; now apply (proj1 (Forall_forall _ _) V)). reflexivity. }
  rewrite W. cbn [bind]. eexists. split; [reflexivity|]. cbn.
  split; [reflexivity|]. split; [reflexivity|]. split; [reflexivity|]. split; [reflexivity|]. split; [reflexivity|].
  pose proof (ArrProofs.Forall2_len _ _ _ HF) as L1. pose proof (ArrProofs.Forall2_len _ _ _ G) as L2.
  split; [congruence|]. split; [rewrite map_length; congruence|]. split; [exact G|].
  rewrite !map_map. apply map_ext_in. intros d Hd. unfold date_as_val. rewrite !get_full.
  rewrite (dav_A c (get_dates f) d Hf) by (apply valid_good; now apply (proj1 (Forall_forall _ _) V)). reflexivity.
Qed.
End Made.

(** k steps of a whole number of seconds *)
Lemma steps_axis tcls c u (f s : pdate) (step o : Q) (z : Z) n l : good_start c (get_dates f) -> good_start c (get_dates s) ->
  (step * inject_Z (seconds_in u) == inject_Z z)%Q -> date_diff c u f s = Some o ->
  l = map (fun k => inject_Z k * step)%Q (arange 0 n 1) ->
  exists t, made tcls c l o u f = Some t /\ t_class t = tcls c /\ t_cal t = c /\ t_units t = u /\ t_start t = CalSpec.full (get_dates f) /\ t_mask t = all_fields /\
    List.length (t_dates t) = List.length l /\ Forall (valid_date c) (t_dates t) /\
    map (date_as_val c (t_start t) u) (map CalSpec.full (t_dates t)) = map Some (t_vals t) /\
    forall k d, nth_error (t_dates t) k = Some d -> exists q, date_as_val c s u (CalSpec.full d) = Some q /\ (q == inject_Z (Z.of_nat k) * step)%Q.
Proof.
  intros Hf Hs Hz Ho ->. rewrite <- seconds_in_eq in Hz. set (uf := unitfactor u) in *.
  assert (Go : (o * inject_Z (Zpos uf) == inject_Z (A c (get_dates s) - A c (get_dates f)))%Q).
  { unfold date_diff, date_as_val in Ho. assert (Gs : good_date c (get_dates s)) by (destruct c; cbn in *; tauto).
    rewrite (dav_A c _ _ Hf Gs) in Ho. assert (o = (A c (get_dates s) - A c (get_dates f)) # unitfactor u) by congruence. subst o.
    fold uf. unfold Qeq, Qmult, inject_Z. cbn. lia. }
  assert (HF : Forall2 (fun v w => ((v + o) * inject_Z (Zpos uf) == inject_Z (w - A c (get_dates f)))%Q)
     (map (fun k => inject_Z k * step)%Q (arange 0 n 1)) (map (fun k => A c (get_dates s) + k * z) (arange 0 n 1))).
  { clear -Hz Go. induction (arange 0 n 1) as [|k ks IH]; constructor; [|exact IH]. clear IH.
    assert (E : ((inject_Z k * step + o) * inject_Z (Zpos uf) == inject_Z k * (step * inject_Z (Zpos uf)) + o * inject_Z (Zpos uf))%Q) by ring.
    rewrite E, Hz, Go. rewrite <- inject_Z_mult, <- inject_Z_plus. assert (K : k * z + (A c (get_dates s) - A c (get_dates f)) = A c (get_dates s) + k * z - A c (get_dates f)) by lia. rewrite K. reflexivity. }
  destruct (made_axis tcls c u f _ _ o Hf HF) as (t & E & H1 & H2 & H3 & H4 & H5 & H6 & _ & H8 & H9). exists t.
  split; [exact E|]. split; [exact H1|]. split; [exact H2|]. split; [exact H3|]. split; [exact H4|]. split; [exact H5|]. split; [exact H6|].
  split. { clear -H8. induction H8 as [|? ? ? ? [H _] _ IH]; constructor; auto. }
  split; [exact H9|]. intros k d Hk.
  assert (X : valid_date c d /\ A c d = A c (get_dates s) + Z.of_nat k * z).
  { rewrite map_length in H6. clear -H8 Hk H6. rewrite length_arange in H6.
    destruct (nth_error (map (fun k => A c (get_dates s) + k * z) (arange 0 n 1)) k) as [w|] eqn:Ew.
    - rewrite nth_error_map in Ew. destruct (nth_error (arange 0 n 1) k) as [j|] eqn:Ej; [|discriminate]. injection Ew as <-.
      assert (j = Z.of_nat k). { unfold arange in Ej. cbn in Ej. rewrite nth_error_map in Ej. destruct (nth_error (seq 0 _) k) as [i|] eqn:Ei; [|discriminate]. injection Ej as <-.
        assert (Li : (k < List.length (seq 0 (Z.to_nat ((n - 0 + 1 - 1) / 1))))%nat) by (apply nth_error_Some; congruence). rewrite seq_length in Li.
        apply (nth_error_nth _ _ 0%nat) in Ei. rewrite seq_nth in Ei by exact Li. lia. }
      subst j. revert H8 Hk. generalize (t_dates t). intros ds H8 Hk.
      assert (Ew : nth_error (map (fun k => A c (get_dates s) + k * z) (arange 0 n 1)) k = Some (A c (get_dates s) + Z.of_nat k * z)) by (rewrite nth_error_map, Ej; reflexivity).
      clear Ej H6. revert Hk Ew. generalize (A c (get_dates s) + Z.of_nat k * z). intros w. revert H8. generalize (map (fun k => A c (get_dates s) + k * z) (arange 0 n 1)). intros zs H8. clear -H8.
      revert k. induction H8 as [|z0 d0 zs ds [H1 H2] _ IH]; intros [|k] Hk Ew; cbn in *; try discriminate; [|exact (IH k Hk Ew)].
      injection Hk as ->. injection Ew as ->. auto.
    - apply nth_error_None in Ew. rewrite map_length, length_arange in Ew. assert (k < List.length (t_dates t))%nat by (apply nth_error_Some; congruence). lia. }
  destruct X as [Vd Ad]. unfold date_as_val. rewrite get_full. rewrite (dav_A c _ d Hs) by now apply valid_good. eexists. split; [reflexivity|].
  rewrite Ad. fold uf. assert (P : ((A c (get_dates s) + Z.of_nat k * z - A c (get_dates s) # uf) * inject_Z (Zpos uf) == inject_Z (Z.of_nat k) * step * inject_Z (Zpos uf))%Q).
  { rewrite <- Qmult_assoc, Hz, <- inject_Z_mult. replace (A c (get_dates s) + Z.of_nat k * z - A c (get_dates s)) with (Z.of_nat k * z) by lia. unfold Qeq, Qmult, inject_Z. cbn. lia. }
  apply Qmult_inj_r in P; [exact P|]. intros Z0. unfold Qeq, inject_Z in Z0. cbn in Z0. lia.
Qed.

(** the date with which values are counted from 0 *)
Definition counted_from (c : cal) (s : pdate) (ref : option string) (f : pdate) : Prop :=
  match ref with None => f = s | Some r => str_as_date c r = Some f end.
(** what the axis is: the dates start + k step *)
Definition steps_from (tcls : cal -> class) (c : cal) (u : CalModel.unit) (f s : pdate) (step : Q) (t : taxis) : Prop :=
  t_class t = tcls c /\ t_cal t = c /\ t_units t = u /\ t_start t = CalSpec.full (get_dates f) /\ t_mask t = all_fields /\ Forall (valid_date c) (t_dates t) /\
  map (date_as_val c (t_start t) u) (map CalSpec.full (t_dates t)) = map Some (t_vals t) /\
  forall k d, nth_error (t_dates t) k = Some d -> exists q, date_as_val c s u (CalSpec.full d) = Some q /\ (q == inject_Z (Z.of_nat k) * step)%Q.

Lemma range_spec tcls c start stop step u ref inc s e f z :
  str_as_date c start = Some s -> str_as_date c stop = Some e -> counted_from c s ref f ->
  good_start c (get_dates s) -> good_start c (get_dates f) -> good_any c (get_dates e) -> (0 < step)%Q -> (step * inject_Z (seconds_in u) == inject_Z z)%Q ->
  exists t n, timerange tcls c start stop step u ref inc = Some t /\ date_diff c u s e = Some n /\ steps_from tcls c u f s step t /\
   (forall k, (k < List.length (t_dates t))%nat <-> (inject_Z (Z.of_nat k) * step < (if inc then n + step else n))%Q).
Proof.
  intros Es Ee Hr Hs Hf He Hp Hz. unfold timerange. rewrite Es, Ee. cbn [bind].
  assert (R : reference_date c s ref = Some f) by (destruct ref; cbn in *; [exact Hr | now rewrite Hr]). rewrite R. cbn [bind].
  destruct (CalProps.C07_wrapdate c s u e Hs He) as (_ & n & _ & _ & En & _). unfold date_diff at 1. rewrite En. cbn [bind].
  assert (Hs' : good_any c (get_dates s)) by (destruct c; cbn in *; tauto).
  destruct (CalProps.C07_wrapdate c f u s Hf Hs') as (_ & o & _ & _ & Eo & _). unfold date_diff at 1. rewrite Eo. cbn [bind].
  destruct (arange_elem (if inc then n + step else n) step) as (l & El & Ll & Fl); [lra|]. rewrite El. cbn [bind].
  destruct (steps_axis tcls c u f s step o z (Z.of_nat (List.length l)) l Hf Hs Hz Eo Fl) as (t & Et & H1 & H2 & H3 & H4 & H5 & H6 & H7 & H8 & H9).
  exists t, n. split; [exact Et|]. split; [exact En|]. split; [repeat (split; [assumption|]); exact H9|]. intros k. rewrite H6, Ll.
  set (x := if inc then (n + step)%Q else n). clearbody x. split; intros H.
  - apply (proj2 (Qmult_lt_r _ _ step Hp)) in H. assert (E : (x / step * step == x)%Q) by (field; lra). lra.
  - apply (proj1 (Qmult_lt_r _ _ step Hp)). assert (E : (x / step * step == x)%Q) by (field; lra). lra.
Qed.
(** C61: the axis of a period has the dates start, start + step, ... before the end, each once and in this order. *)
Theorem C61_range : forall tcls c start stop step u ref s e f z,
  str_as_date c start = Some s -> str_as_date c stop = Some e -> counted_from c s ref f ->
  good_start c (get_dates s) -> good_start c (get_dates f) -> good_any c (get_dates e) -> (0 < step)%Q -> (step * inject_Z (seconds_in u) == inject_Z z)%Q ->
  exists t n, timerange tcls c start stop step u ref false = Some t /\ date_diff c u s e = Some n /\ steps_from tcls c u f s step t /\
   (forall k, (k < List.length (t_dates t))%nat <-> (inject_Z (Z.of_nat k) * step < n)%Q).
Proof. intros tcls c start stop step u ref s e f z H1 H2 H3 H4 H5 H6 H7 H8. exact (range_spec tcls c start stop step u ref false s e f z H1 H2 H3 H4 H5 H6 H7 H8). Qed.
Print Assumptions C61_range.
(** C61: with the end included, the axis ends with the end of the period, if this is a whole number of steps after the start. *)
Theorem C61_inclusive_partial : forall tcls c start stop step u ref s e f z n j,
  str_as_date c start = Some s -> str_as_date c stop = Some e -> counted_from c s ref f ->
  good_start c (get_dates s) -> good_start c (get_dates f) -> good_any c (get_dates e) -> (0 < step)%Q -> (step * inject_Z (seconds_in u) == inject_Z z)%Q ->
  date_diff c u s e = Some n -> (n == inject_Z j * step)%Q ->
  exists t, timerange tcls c start stop step u ref true = Some t /\ steps_from tcls c u f s step t /\
   (forall k, (k < List.length (t_dates t))%nat <-> (inject_Z (Z.of_nat k) * step <= n)%Q).
Proof.
  intros tcls c start stop step u ref s e f z n j H1 H2 H3 H4 H5 H6 H7 H8 H9 Hj.
  destruct (range_spec tcls c start stop step u ref true s e f z H1 H2 H3 H4 H5 H6 H7 H8) as (t & n' & Et & En & St & L). exists t. split; [exact Et|]. split; [exact St|].
  intros k. rewrite L. assert (n' = n) by congruence. subst n'. rewrite Hj.
  assert (D : (inject_Z j * step + step == (inject_Z (j + 1)) * step)%Q) by (rewrite inject_Z_plus; ring). rewrite D.
  split; intros H.
  - apply (proj1 (Qmult_lt_r _ _ step H7)) in H. rewrite <- Zlt_Qlt in H. apply Qmult_le_r; [exact H7|]. rewrite <- Zle_Qle. lia.
  - apply (proj1 (Qmult_le_r _ _ step H7)) in H. rewrite <- Zle_Qle in H. apply Qmult_lt_r; [exact H7|]. rewrite <- Zlt_Qlt. lia.
Qed.
Print Assumptions C61_inclusive_partial.
(** C61, refuted: otherwise the axis goes on beyond the end of the period. *)
Theorem C61_inclusive_refuted : forall tcls, exists t, timerange tcls Std "1 Jan 2000" "12:00 3 Jan 2000" 1 Days None true = Some t /\
  t_dates t = map (fun d => mkdate 2000 1 d 0 0 0) [1; 2; 3; 4] /\ earlier (mkdate 2000 1 3 12 0 0) (mkdate 2000 1 4 0 0 0).
Proof.
  intros tcls.
  assert (K : option_map t_dates (timerange tcls Std "1 Jan 2000" "12:00 3 Jan 2000" 1 Days None true) = Some (map (fun d => mkdate 2000 1 d 0 0 0) [1; 2; 3; 4])) by (vm_compute; reflexivity).
  destruct (timerange tcls Std "1 Jan 2000" "12:00 3 Jan 2000" 1 Days None true) as [t|]; [|discriminate K]. exists t. split; [reflexivity|].
  split; [cbn [option_map] in K; congruence|]. unfold earlier. cbn. lia.
Qed.
Print Assumptions C61_inclusive_refuted.

(** C61: the axis of n dates, in exact arithmetic. *)
Theorem C61_count : forall tcls c start n step u ref s f z, str_as_date c start = Some s -> counted_from c s ref f ->
  good_start c (get_dates s) -> good_start c (get_dates f) -> (~ step == 0)%Q -> (step * inject_Z (seconds_in u) == inject_Z z)%Q ->
  exists t, timen tcls c start n step u ref = Some t /\ steps_from tcls c u f s step t /\ List.length (t_dates t) = Z.to_nat n.
Proof.
  intros tcls c start n step u ref s f z Es Hr Hs Hf Hp Hz. unfold timen. rewrite Es. cbn [bind].
  assert (R : reference_date c s ref = Some f) by (destruct ref; cbn in *; [exact Hr | now rewrite Hr]). rewrite R. cbn [bind].
  assert (Hs' : good_any c (get_dates s)) by (destruct c; cbn in *; tauto).
  destruct (CalProps.C07_wrapdate c f u s Hf Hs') as (_ & o & _ & _ & Eo & _). unfold date_diff. rewrite Eo. cbn [bind].
  destruct (arange_elem (inject_Z n * step) step Hp) as (l & El & Ll & Fl). rewrite El. cbn [bind].
  destruct (steps_axis tcls c u f s step o z (Z.of_nat (List.length l)) l Hf Hs Hz Eo Fl) as (t & Et & H1 & H2 & H3 & H4 & H5 & H6 & H7 & H8 & H9).
  exists t. split; [exact Et|]. split; [repeat (split; [assumption|]); exact H9|]. rewrite H6.
  assert (D : (inject_Z n * step / step == inject_Z n)%Q) by (field; exact Hp).
  assert (M : forall k, (k < List.length l)%nat <-> Z.of_nat k < n) by (intros k; rewrite Ll, D, Zlt_Qlt; reflexivity).
  pose proof (M (List.length l)) as M1. pose proof (M (Z.to_nat n)) as M2. destruct (List.length l) as [|j] eqn:E; [lia|]. pose proof (M j) as M3. lia.
Qed.
Print Assumptions C61_count.
(** C61, refuted: in floating point, three steps of 0.1 are not three. The length of np.arange is the ceiling of the quotient. *)
Definition tenth : spec_float := S754_finite false 7205759403792794 (-56).
Definition three : spec_float := S754_finite false 6755399441055744 (-51).
Theorem C61_float_refuted : SFltb three (SFdiv 53 1024 (SFmul 53 1024 three tenth) tenth) = true.
Proof. vm_compute. reflexivity. Qed.
Print Assumptions C61_float_refuted.

(** C61: n days without years, from a given day on *)
Theorem C61_yearless : forall tcls n start step u z, (~ step == 0)%Q -> (step * inject_Z (seconds_in u) == inject_Z z)%Q ->
  exists t, yearlessn tcls n start step u = Some t /\ t_cal t = Yearless /\ List.length (t_dates t) = Z.to_nat n /\ Forall (valid_date Yearless) (t_dates t) /\
    forall k d, nth_error (t_dates t) k = Some d ->
      (inject_Z ((day d - start) * 86400 + hour d * 3600 + minute d * 60 + second d) == inject_Z (Z.of_nat k) * step * inject_Z (seconds_in u))%Q /\
      exists q, nth_error (t_vals t) k = Some q /\ (q == inject_Z (Z.of_nat k) * step)%Q.
Proof.
  intros tcls n start step u z Hp Hz. unfold yearlessn.
  destruct (arange_elem (inject_Z n * step) step Hp) as (l & El & Ll & Fl). rewrite El. unfold bind at 1.
  set (p := mkpdate None None (Some start) (Some 0) (Some 0) (Some 0)). set (m := mkmask false false true true true true).
  rewrite <- seconds_in_eq in Hz |- *. set (uf := unitfactor u) in *.
  assert (G : good_start Yearless (get_dates p)) by (cbn; auto).
  assert (Vd : forall k, exists x, val_as_date Yearless p u false (inject_Z k * step)%Q = Some (mask_date m x) /\ valid_date Yearless x /\ A Yearless x = k * z + A Yearless (get_dates p)).
  { intros k. unfold val_as_date. assert (E : (inject_Z k * step * inject_Z (Z.pos (unitfactor u)) == inject_Z (k * z))%Q) by (fold uf; rewrite <- Qmult_assoc, Hz, inject_Z_mult; reflexivity).
    rewrite (round_exact _ _ E). destruct (vad_A Yearless (get_dates p) (k * z) G) as (x & Ex & Vx & Ax). rewrite Ex. exists x. split; [reflexivity|]. split; [exact Vx | exact Ax]. }
  assert (Gm : forall x, valid_date Yearless x -> get_dates (mask_date m x) = x).
  { intros x [_ [Y M]]. unfold get_dates, mask_date, m. cbn. destruct x; cbn in *. now subst. }
  assert (P : forall js, exists ds, sequence (map (val_as_date Yearless p u false) (map (fun k => inject_Z k * step)%Q js)) = Some (map (mask_date m) ds) /\ Forall (valid_date Yearless) ds /\
    List.length ds = List.length js /\ forall k d, nth_error ds k = Some d -> exists j, nth_error js k = Some j /\ A Yearless d = j * z + A Yearless (get_dates p)).
  { clear -Vd. induction js as [|j js IH]; [exists []; repeat split; [constructor | intros [|] ? H; discriminate H]|].
    destruct IH as (ds & E & F & L & K). destruct (Vd j) as (x & Ex & Vx & Ax). exists (x :: ds). split; [cbn [map sequence]; now rewrite Ex, E|]. split; [now constructor|].
    split; [cbn; congruence|]. intros [|k] d H; cbn in H |- *; [injection H as <-; eauto | now apply K]. }
  specialize (P (arange 0 (Z.of_nat (List.length l)) 1)). rewrite <- Fl, length_arange, Nat2Z.id in P.
  destruct P as (ds & E & F & L & K). rewrite E. unfold bind at 1. cbv beta zeta.
  assert (I : map get_dates (map (mask_date m) ds) = ds).
  { rewrite map_map. rewrite <- (map_id ds) at 2. apply map_ext_in. intros d Hd. apply Gm. now apply (proj1 (Forall_forall _ _) F). }
  rewrite I.
  assert (W : sequence (map (axis_value Yearless p u m) ds) = Some (map (fun d => (A Yearless d - A Yearless (get_dates p)) # uf) ds)).
  { apply sequence_map. intros d Hd. pose proof (proj1 (Forall_forall _ _) F d Hd) as Vx. unfold axis_value, date_as_val. rewrite (Gm d Vx).
    rewrite (dav_A Yearless (get_dates p) d G) by now apply valid_good. reflexivity. }
  rewrite W. cbn [bind]. eexists. split; [reflexivity|]. cbn [t_cal t_dates t_vals]. split; [reflexivity|].
  assert (D : (inject_Z n * step / step == inject_Z n)%Q) by (field; exact Hp).
  assert (M : forall k, (k < List.length l)%nat <-> Z.of_nat k < n) by (intros k; rewrite Ll, D, Zlt_Qlt; reflexivity).
  split. { rewrite L. pose proof (M (List.length l)) as M1. pose proof (M (Z.to_nat n)) as M2. destruct (List.length l) as [|j] eqn:El'; [lia|]. pose proof (M j) as M3. lia. }
  split; [exact F|]. intros k d Hk. destruct (K k d Hk) as (j & Hj & Ad).
  assert (j = Z.of_nat k).
  { unfold arange in Hj. cbn in Hj. rewrite nth_error_map in Hj. destruct (nth_error (seq 0 _) k) as [i|] eqn:Ei; [|discriminate]. injection Hj as <-.
    match type of Ei with nth_error (seq 0 ?w) k = _ => assert (Li : (k < List.length (seq 0 w))%nat) by (apply nth_error_Some; congruence) end. rewrite seq_length in Li.
    apply (nth_error_nth _ _ 0%nat) in Ei. rewrite seq_nth in Ei by exact Li. lia. }
  subst j. split.
  - rewrite <- Qmult_assoc, Hz, <- inject_Z_mult. assert (X : (day d - start) * 86400 + hour d * 3600 + minute d * 60 + second d = Z.of_nat k * z).
    { unfold A, A_yl, tod, p, get_dates in Ad. cbn in Ad. lia. }
    rewrite X. reflexivity.
  - eexists. split; [rewrite nth_error_map, Hk; reflexivity|]. rewrite Ad.
    assert (P : ((Z.of_nat k * z + A Yearless (get_dates p) - A Yearless (get_dates p) # uf) * inject_Z (Zpos uf) == inject_Z (Z.of_nat k) * step * inject_Z (Zpos uf))%Q).
    { rewrite <- Qmult_assoc, Hz, <- inject_Z_mult. replace (Z.of_nat k * z + A Yearless (get_dates p) - A Yearless (get_dates p)) with (Z.of_nat k * z) by lia. unfold Qeq, Qmult, inject_Z. cbn. lia. }
    apply Qmult_inj_r in P; [exact P|]. intros Z0. unfold Qeq, inject_Z in Z0. cbn in Z0. lia.
Qed.
Print Assumptions C61_yearless.

(** The hypotheses are met: three times a day, counted from an earlier date. *)
Example C61_used : forall tcls, exists t, timerange tcls Std "28 Feb 2000" "16:00 1 Mar 2000" 8 Hours (Some "1 Jan 2000"%string) false = Some t /\
  (exists n, steps_from tcls Std Hours (mkpdate (Some 2000) (Some 1) (Some 1) None None None) (mkpdate (Some 2000) (Some 2) (Some 28) None None None) 8 t /\
     date_diff Std Hours (mkpdate (Some 2000) (Some 2) (Some 28) None None None) (mkpdate (Some 2000) (Some 3) (Some 1) (Some 16) (Some 0) None) = Some n /\
     (forall k, (k < List.length (t_dates t))%nat <-> (inject_Z (Z.of_nat k) * 8 < n)%Q)) /\
  List.length (t_dates t) = 8%nat.
Proof.
  intros tcls.
  destruct (C61_range tcls Std "28 Feb 2000" "16:00 1 Mar 2000" 8 Hours (Some "1 Jan 2000"%string)
    (mkpdate (Some 2000) (Some 2) (Some 28) None None None) (mkpdate (Some 2000) (Some 3) (Some 1) (Some 16) (Some 0) None) (mkpdate (Some 2000) (Some 1) (Some 1) None None None) 28800)
    as (t & n & Et & En & St & L); try reflexivity; try (cbn; lia).
  exists t. split; [exact Et|]. split; [exists n; split; [exact St | split; [exact En | exact L]]|].
  assert (K : option_map (fun t => List.length (t_dates t)) (timerange tcls Std "28 Feb 2000" "16:00 1 Mar 2000" 8 Hours (Some "1 Jan 2000"%string) false) = Some 8%nat) by (vm_compute; reflexivity).
  rewrite Et in K. cbn [option_map] in K. congruence.
Qed.
