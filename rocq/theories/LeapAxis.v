From Coq Require Import ZArith List Bool QArith Qround Lia Permutation.
From Verif Require Import CalModel CalSpec CalProofs CalPyProofs TimeSearchModel TimeSearchSpec TimeDateProofs IndexModel IndexSpec ArrModel ViewModel AxisModel AxisSpec VarOpsModel VarOpsSpec SelectModel StencilModel ConcatModel ConcatAxis ClimModel.
From Verif Require Import SortSpec IndexProofs ArrProofs ViewProofs VarOpsProofs ClimAxis InterpView LeapModel LeapSpec LeapProofs.
Import ListNotations.
Open Scope Z_scope.
Notation zlen := IndexSpec.zlen.

Lemma complete_eq k d : get_dates (mask_date k d) = complete k d.
Proof. unfold get_dates, mask_date, complete. destruct k as [[] [] [] [] [] []]; reflexivity. Qed.
Lemma complete_year k d : my k = true -> year (complete k d) = year d.
Proof. intros H. cbn. now rewrite H. Qed.

Definition item (c : cal) (k : mask) (d : date) : Z * Z := (doyf c (complete k d), tod (complete k d)).

Lemma day_value c k y d : c <> Yearless -> my k = true -> valid_date c d -> year d = y ->
  exists q, option_map (fun q => q + 1)%Q (date_as_val c (new_year y) Days (mask_date k d)) = Some q /\ is_day q (item c k d).
Proof.
  intros Hc Hk Hv Hy. unfold date_as_val. rewrite complete_eq. change (get_dates (new_year y)) with (first y).
  pose proof (masked_valid c k d Hv) as Hv'. rewrite complete_eq in Hv'.
  rewrite (dav_A c (first y) (complete k d)); [|destruct c; cbn; try lia; congruence|now apply valid_good].
  cbn [option_map]. eexists; split; [reflexivity|]. unfold item.
  replace (doyf c (complete k d)) with (doyf c (complete k d) - 1 + 1) by lia. apply day_plus. split; [apply tod_range, Hv'|]. cbn [fst snd].
  rewrite (A_doy c (complete k d) Hc), (complete_year k d Hk), Hy. unfold Qeq; cbn [Qnum Qden unitfactor]. lia.
Qed.

Lemma days_of_spec t y : t_cal t <> Yearless -> my (t_mask t) = true -> Forall (valid_date (t_cal t)) (t_dates t) ->
  exists qs, days_of t y = Some qs /\ Forall2 is_day qs (map (item (t_cal t) (t_mask t)) (filter (fun d => year d =? y) (t_dates t))).
Proof.
  intros Hc Hk Hv. unfold days_of. induction (t_dates t) as [|d l IH]; [exists []; split; [reflexivity|constructor]|]. inversion Hv as [|? ? Hd Hl]; subst.
  destruct (IH Hl) as (qs & E & H). cbn [filter]. destruct (Z.eqb_spec (year d) y) as [Ey|Ey]; [|exists qs; auto].
  destruct (day_value (t_cal t) (t_mask t) y d Hc Hk Hd Ey) as (q & Eq & Hq). exists (q :: qs). cbn [map sequence]. rewrite Eq. split; [now rewrite E|]. now constructor.
Qed.

(** *** the years in order *)
Lemma order_cons d l : in_year_order (d :: l) -> Forall (fun e => year d <= year e) l /\ in_year_order l.
Proof.
  intros H. split.
  - apply Forall_forall. intros e He. apply In_elem in He as [k Hk]. pose proof (elem_lt _ _ _ Hk) as Hr. apply (H 0 (k + 1) d e); [now apply elem_0|apply elem_S; [lia|exact Hk]|lia].
  - intros i j a b Ha Hb Hij. pose proof (elem_lt _ _ _ Ha). pose proof (elem_lt _ _ _ Hb).
    apply (H (i + 1) (j + 1) a b); [| |lia]; apply elem_S; try lia; assumption.
Qed.
Lemma filter_none {A} (f : A -> bool) l : Forall (fun x => f x = false) l -> filter f l = [].
Proof. induction 1 as [|x l H _ IH]; [reflexivity|]. cbn. now rewrite H. Qed.
Lemma filter_same {A} (f : A -> bool) l : Forall (fun x => f x = true) l -> filter f l = l.
Proof. induction 1 as [|x l H _ IH]; [reflexivity|]. cbn. now rewrite H, IH. Qed.
Lemma year_first y l : in_year_order l -> Forall (fun d => y <= year d) l -> filter (fun d => year d =? y) l ++ filter (fun d => negb (year d =? y)) l = l.
Proof.
  induction l as [|d l IH]; intros Ho Hy; [reflexivity|]. inversion Hy as [|? ? Hd Hl]; subst. apply order_cons in Ho as [H1 H2]. cbn [filter]. destruct (Z.eqb_spec (year d) y) as [E|E]; cbn [negb].
  - cbn [app]. now rewrite (IH H2 Hl).
  - assert (Forall (fun e => (year e =? y) = false) l) as Hn by (eapply Forall_impl; [|exact H1]; cbn; intros e He; apply Z.eqb_neq; lia).
    rewrite (filter_none _ _ Hn). cbn [app]. f_equal. apply filter_same. eapply Forall_impl; [|exact Hn]. cbn; intros e ->. reflexivity.
Qed.
Lemma order_filter f l : in_year_order l -> in_year_order (filter f l).
Proof.
  induction l as [|d l IH]; intros H; [exact H|]. pose proof (order_cons _ _ H) as [H1 H2]. cbn [filter]. destruct (f d); [|now apply IH].
  intros i j a b Ha Hb Hij. specialize (IH H2). pose proof (elem_lt _ _ _ Ha). pose proof (elem_lt _ _ _ Hb).
  apply elem_cons in Hb as [[? ?]|[_ Hb']]; [lia|].
  apply elem_cons in Ha as [[-> ->]|[_ Ha']].
  - assert (In b l) as Hin by (eapply proj1, filter_In; eapply elem_In; exact Hb'). rewrite Forall_forall in H1. now apply H1.
  - apply (IH (i - 1) (j - 1) a b); [exact Ha'|exact Hb'|lia].
Qed.
Lemma sorted_cons y ys : ArrProofs.sorted (y :: ys) -> Forall (fun z => y < z) ys /\ ArrProofs.sorted ys.
Proof. intros H. inversion H; subst. split; [now apply Forall_forall|assumption]. Qed.
Lemma years_split : forall ys l, ArrProofs.sorted ys -> in_year_order l -> Forall (fun d => In (year d) ys) l -> flat_map (fun y => filter (fun d => year d =? y) l) ys = l.
Proof.
  induction ys as [|y ys IH]; intros l Hs Ho Hin; [destruct l as [|d l]; [reflexivity|]; inversion Hin as [|? ? K ?]; destruct K|].
  apply sorted_cons in Hs as [Hy Hs]. cbn [flat_map].
  assert (Forall (fun d => y <= year d) l) as Hle.
  { eapply Forall_impl; [|exact Hin]. cbn. intros d [E|E]; [lia|]. rewrite Forall_forall in Hy. specialize (Hy _ E). lia. }
  transitivity (filter (fun d => year d =? y) l ++ filter (fun d => negb (year d =? y)) l); [f_equal|exact (year_first y l Ho Hle)]. rewrite <- (IH (filter (fun d => negb (year d =? y)) l) Hs).
  - apply InterpView.flat_map_ext_in. intros z Hz. rewrite Forall_forall in Hy. specialize (Hy _ Hz). clear - Hy. induction l as [|d l IH]; [reflexivity|]. cbn [filter].
    destruct (Z.eqb_spec (year d) y) as [E|E]; cbn [negb filter]; [rewrite (proj2 (Z.eqb_neq (year d) z)) by lia; exact IH|destruct (year d =? z); [now f_equal|exact IH]].
  - now apply order_filter.
  - apply Forall_forall. intros d Hd. apply filter_In in Hd as [Hd E]. rewrite Forall_forall in Hin. destruct (Hin _ Hd) as [K|K]; [|exact K]. rewrite K, Z.eqb_refl in E. discriminate.
Qed.

(** *** one year of the new axis *)
Definition as_item (c : cal) (y : Z) (it : Z * Z) (e : date) : Prop := valid_date c e /\ year e = y /\ doyf c e = fst it /\ tod e = snd it.
Lemma clock s : 0 <= s < 86400 -> exists h mi se, 0 <= h < 24 /\ 0 <= mi < 60 /\ 0 <= se < 60 /\ h * 3600 + mi * 60 + se = s.
Proof. intros H. destruct (time_split s H) as (H1 & H2 & H3 & H4). eauto 10. Qed.
Definition jan (y : Z) : pdate := mkpdate (Some y) (Some 1) (Some 1) (Some 0) (Some 0) (Some 0).
Lemma jan_good c y : c <> Yearless -> good_start c (get_dates (jan y)).
Proof. intros Hc. destruct c; cbn; try lia; congruence. Qed.
Lemma new_date c y q it : c <> Yearless -> is_day q it -> 1 <= fst it <= ylen c y ->
  exists p, val_as_date c (jan y) Days false (q - 1)%Q = Some p /\ as_item c y it (get_dates p).
Proof.
  intros Hc Hq Hr. destruct it as [n s]. cbn [fst snd] in Hr. unfold val_as_date. change (get_dates (jan y)) with (first y).
  pose proof (day_minus _ _ _ Hq) as [Hs E]. cbn [fst snd] in Hs, E.
  rewrite (round_exact _ ((n - 1) * 86400 + s)).
  2: { rewrite E. unfold Qeq, Qmult, inject_Z; cbn [Qnum Qden unitfactor]. lia. }
  destruct (vad_A c (first y) ((n - 1) * 86400 + s) (jan_good c y Hc)) as (e & Ee & Hv & HA). rewrite Ee.
  eexists; split; [reflexivity|].
  assert (as_item c y (n, s) e) as K; [|destruct e; exact K].
  destruct (day_find c y n Hc Hr) as (m & d & Hd). destruct (clock s Hs) as (h & mi & se & Hh & Hmi & Hse & Es). destruct (Hd h mi se Hh Hmi Hse) as [Hv0 Hn].
  assert (e = mkdate y m d h mi se) as ->.
  { apply (A_inj c); [exact Hv|exact Hv0|]. rewrite HA, (A_doy c (mkdate y m d h mi se) Hc), Hn. cbn [year]. unfold tod; cbn [hour minute second]. lia. }
  repeat split; try assumption; apply Hv0.
Qed.

Definition year_piece (cls : list Z) (c : cal) (y : Z) (its : list (Z * Z)) (p : taxis) : Prop :=
  t_class p = cls /\ t_cal p = c /\ t_start p = jan y /\ t_units p = Days /\ t_mask p = all_fields /\
  Forall2 (as_item c y) its (t_dates p) /\ map (axis_value c (jan y) Days all_fields) (t_dates p) = map Some (t_vals p).
Lemma new_piece_spec cls c y qs its : c <> Yearless -> Forall2 is_day qs its -> Forall (fun it => 1 <= fst it <= ylen c y) its ->
  exists p, new_piece cls c y qs = Some p /\ year_piece cls c y its p.
Proof.
  intros Hc H Hr.
  assert (exists ds, sequence (map (fun q => val_as_date c (jan y) Days false (q - 1)%Q) qs) = Some ds /\ Forall2 (as_item c y) its (map get_dates ds)) as (ds & E & Hd).
  { clear - Hc H Hr. induction H as [|q it qs its Hq _ IH]; [exists []; split; [reflexivity|constructor]|]. inversion Hr as [|? ? H1 H2]; subst.
    destruct (IH H2) as (ds & E & Hd). destruct (new_date c y q it Hc Hq H1) as (p & Ep & Hp). exists (p :: ds). cbn [map sequence]. rewrite Ep, E. split; [reflexivity|]. now constructor. }
  unfold new_piece. change (mkpdate (Some y) (Some 1) (Some 1) (Some 0) (Some 0) (Some 0)) with (jan y). rewrite E. cbn [bind].
  assert (Forall (valid_date c) (map get_dates ds)) as Hv.
  { clear - Hd. induction Hd as [|it e its es K _ IH]; constructor; [apply K|exact IH]. }
  destruct (axis_values_exist c (jan y) Days all_fields (map get_dates ds) (jan_good c y Hc) Hv) as (vals & Hvals). rewrite Hvals, sequence_Some. cbn [bind].
  eexists; split; [reflexivity|]. repeat split; assumption.
Qed.

(** *** all years *)
Lemma prefix_refl c : prefix c c = true.
Proof. induction c as [|x c IH]; [reflexivity|]. cbn. now rewrite Z.eqb_refl. Qed.
Definition joined (cls : list Z) (c : cal) (dates : list date) (u : taxis) : Prop :=
  t_class u = cls /\ t_cal u = c /\ t_units u = Days /\ t_mask u = all_fields /\ t_dates u = dates /\ good_start c (get_dates (t_start u)) /\
  map (axis_value c (t_start u) Days all_fields) dates = map Some (t_vals u).
Lemma start_fields_good c p : good_start c (get_dates p) -> c <> Yearless -> good_start c (get_dates (start_fields all_fields p)).
Proof. intros H Hc. destruct p as [[] [] [] [] [] []]; destruct c; cbn in *; try congruence; try lia; auto. Qed.
Lemma join_pieces env cls c ps : c <> Yearless -> ps <> [] -> Forall (fun p => exists y its, year_piece cls c y its p) ps -> List.concat (map t_dates ps) <> [] ->
  exists u, axis_concat env (map Time ps) = Some (Time u) /\ joined cls c (List.concat (map t_dates ps)) u.
Proof.
  intros Hc Hne Hps Hd.
  assert (Forall (valid_date c) (List.concat (map t_dates ps))) as Hv.
  { clear - Hps. induction Hps as [|p ps (y & its & H) _ IH]; [constructor|]. cbn [map List.concat]. apply Forall_app. split; [|exact IH].
    destruct H as (_ & _ & _ & _ & _ & H & _). clear - H. induction H as [|it e its es K _ IH]; constructor; [apply K|exact IH]. }
  destruct ps as [|p0 ps]; [congruence|]. destruct ps as [|p1 ps].
  - inversion Hps as [|? ? (y & its & H1 & H2 & H3 & H4 & H5 & H6 & H7) _]; subst. exists p0. split; [reflexivity|]. cbn [map List.concat]. rewrite app_nil_r.
    repeat split; try assumption; rewrite ?H3; [now apply jan_good|exact H7].
  - remember (p1 :: ps) as rest eqn:Er. assert (map Time (p0 :: rest) = Time p0 :: Time p1 :: map Time ps) as Em by (now subst).
    unfold axis_concat. rewrite Em. cbn iota. rewrite <- Em.
    assert (Forall (fun p => t_class p = cls /\ t_units p = Days /\ t_mask p = all_fields /\ good_start c (get_dates (t_start p)) /\ t_cal p = c) (p0 :: rest)) as Hall.
    { eapply Forall_impl; [|exact Hps]. cbn. intros p (y & its & H1 & H2 & H3 & H4 & H5 & _). rewrite H3. repeat split; auto. now apply jan_good. }
    assert (t_class p0 = cls /\ t_units p0 = Days /\ t_mask p0 = all_fields /\ good_start c (get_dates (t_start p0)) /\ t_cal p0 = c) as (P1 & P2 & P3 & P4 & P5) by (now inversion Hall).
    assert (map axis_class (map Time (p0 :: rest)) = cls :: map t_class rest) as Ec by (cbn [map axis_class]; rewrite P1, map_map; reflexivity).
    rewrite Ec, common_class_first. 
    2: { constructor; [apply prefix_refl|]. apply Forall_map. inversion Hall; subst. eapply Forall_impl; [|eassumption]. cbn. intros p (-> & _). apply prefix_refl. }
    cbn [bind]. assert (all_times (map Time (p0 :: rest)) = Some (p0 :: rest)) as Et.
    { unfold all_times. rewrite map_map. exact (sequence_Some (p0 :: rest)). }
    rewrite Et. cbn [bind].
    assert (fold_left ConcatModel.mask_and (map t_mask (p0 :: rest)) (t_mask p0) = all_fields) as Ek.
    { rewrite P3. clear - Hall. induction Hall as [|p l (_ & _ & H & _) _ IH]; [reflexivity|]. cbn [map fold_left]. rewrite H. exact IH. }
    rewrite Ek. change (mask_eqb all_fields _) with false. cbn iota.
    assert (forallb (fun t => if unit_eq_dec (t_units t) (t_units p0) then true else false) (p0 :: rest) = true) as Eu.
    { apply forallb_forall. intros p Hp. rewrite Forall_forall in Hall. destruct (Hall p Hp) as (_ & H & _). rewrite H, P2. destruct (unit_eq_dec Days Days); congruence. }
    rewrite Eu, P2.
    assert (exists start, (if forallb (fun t => if pdate_eq_dec (t_start t) (t_start p0) then true else false) (p0 :: rest) then Some (start_fields all_fields (t_start p0))
       else option_map (mask_date all_fields) (nth_error (List.concat (map t_dates (p0 :: rest))) 0)) = Some start /\ good_start c (get_dates start)) as (start & Es & Hs).
    { clear Eu. destruct (forallb _ _); [eexists; split; [reflexivity|]; now apply start_fields_good|].
      destruct (List.concat (map t_dates (p0 :: rest))) as [|d0 ds]; [congruence|]. cbn [nth_error option_map]. eexists; split; [reflexivity|].
      inversion Hv as [|? ? Hv0 _]. pose proof (masked_valid c all_fields d0 Hv0) as K. destruct c; cbn [good_start]; try exact I; try congruence; apply (valid_month _ _ Hc K). }
    rewrite Es. cbn [bind]. rewrite P5.
    destruct (axis_values_exist c start Days all_fields _ Hs Hv) as (vals & Evals). rewrite Evals, sequence_Some. cbn [bind].
    eexists; split; [reflexivity|]. repeat split; assumption.
Qed.
