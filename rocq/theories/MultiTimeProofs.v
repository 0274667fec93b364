(** Lemmas for the time axis that is made up for many files. *)
From Coq Require Import ZArith List Bool Lia ZifyBool QArith_base QArith Qabs Field Lqa.
From Verif Require Import CalModel CalSpec CalProofs CalPyProofs TimeSearchModel TimeDateProofs IndexModel IndexSpec IndexProofs ArrModel ArrProofs SortSpec AxisModel AxisSpec AxisProofs ViewProofs VarOpsModel StencilModel SelectProofs IntgrProofs LeapProofs InterpView CompositeProofs ClimModel MultiFileModel MultiTimeModel MultiTimeSpec.
Import ListNotations.
Open Scope Z_scope.
Notation zlen := IndexSpec.zlen.

Lemma seq_Some {X} (l : list X) : sequence (map Some l) = Some l.
Proof. induction l as [|x l IH]; cbn; [reflexivity|]. rewrite IH. reflexivity. Qed.

Section Axis.
Context (c : cal).
Notation A := (CalProofs.A c).

Lemma fields_fill s : fill_start c (mask_date (every_field c) s) = mask_date (every_field c) s /\ fields_of (mask_date (every_field c) s) = every_field c.
Proof. destruct c; split; reflexivity. Qed.
Lemma valid_get x : valid_date c x -> get_dates (mask_date (every_field c) x) = x.
Proof. destruct c, x as [y m d h mi s]; intros H; try reflexivity. destruct H as (_ & H1 & H2). cbn in *. subst. reflexivity. Qed.

Definition secs (start d : date) (u : CalModel.unit) : Q := (A d - A start) # unitfactor u.
Lemma value_is start u d : good_start c (get_dates start) -> valid_date c d -> axis_value c start u (every_field c) d = Some (secs (get_dates start) d u).
Proof. intros G V. unfold axis_value, date_as_val. rewrite (valid_get d V), (dav_A c _ _ G (valid_good _ _ V)). reflexivity. Qed.
Lemma date_is start u d v : start = mask_date (every_field c) (get_dates start) -> good_start c (get_dates start) -> valid_date c d -> (v == secs (get_dates start) d u)%Q ->
  exists p, val_as_date c start u false v = Some p /\ get_dates p = d.
Proof.
  intros E G V Hv. unfold val_as_date. rewrite (round_exact _ (A d - A (get_dates start))).
  - destruct (vad_A c (get_dates start) (A d - A (get_dates start)) G) as (x & E1 & Vx & Ex). rewrite E1. eexists. split; [reflexivity|].
    assert (x = d) as -> by (apply (A_inj c); [assumption|assumption|lia]). rewrite E. rewrite <- (valid_get d V) at 7. destruct c; reflexivity.
  - rewrite Hv. unfold secs, Qeq, inject_Z. cbn. lia.
Qed.
Lemma new_values t dates values : t_cal t = c -> complete t -> Forall (valid_date c) dates ->
  Forall2 (fun v d => v == secs (get_dates (t_start t)) d (t_units t))%Q values dates ->
  exists T, with_new_values t values = Some T /\ t_dates T = dates /\ t_class T = t_class t /\ t_start T = t_start t /\ t_units T = t_units t /\ complete T /\ t_cal T = c.
Proof.
  intros Hc (C1 & C2 & C3 & _ & _) Hv HF. rewrite Hc in *. unfold with_new_values. rewrite Hc. rewrite C2. destruct (fields_fill (get_dates (t_start t))) as [-> ->]. rewrite <- C2.
  assert (exists ps, sequence (map (val_as_date c (t_start t) (t_units t) false) values) = Some ps /\ map get_dates ps = dates) as (ps & -> & Ep).
  { clear -C2 C3 Hv HF. revert Hv. induction HF as [|v d vs ds Hd HF IH]; intros Hv; [exists []; split; reflexivity|]. inversion Hv as [|? ? V1 V2]; subst.
    destruct (date_is (t_start t) (t_units t) d v C2 C3 V1 Hd) as (p & E1 & E2). destruct (IH V2) as (ps & E3 & E4). exists (p :: ps). cbn [map sequence]. rewrite E1, E3. split; [reflexivity|]. cbn. congruence. }
  cbn [bind]. rewrite Ep.
  assert (map (axis_value c (t_start t) (t_units t) (every_field c)) dates = map Some (map (fun d => secs (get_dates (t_start t)) d (t_units t)) dates)) as Em.
  { rewrite map_map. apply map_ext_in. intros d Hd. apply value_is; [exact C3|]. exact (proj1 (Forall_forall _ _) Hv d Hd). }
  rewrite Em, seq_Some. cbn [bind]. eexists. split; [reflexivity|]. cbn. repeat (split; [reflexivity|]). split; [|reflexivity]. unfold complete; cbn.
  split; [reflexivity|]. split; [exact C2|]. split; [exact C3|]. split; [exact Hv|exact Em].
Qed.

Lemma valid_start d : valid_date c d -> good_start c d.
Proof. intros V. destruct c; cbn; [apply (valid_month Std); [discriminate|exact V]|apply (valid_month C365); [discriminate|exact V]|exact Logic.I|destruct V; assumption]. Qed.

(** *** evenly spaced dates *)
Context (dates : list date) (s : Z) (Hs : 0 < s) (Hv : Forall (valid_date c) dates) (Hev : evenly c dates s).
Lemma even_at i a b : nth_error dates 0 = Some a -> nth_error dates i = Some b -> A b = A a + Z.of_nat i * s.
Proof.
  intros Ha. revert b. induction i as [|i IH]; intros b Hb; [rewrite Ha in Hb; injection Hb as <-; lia|].
  destruct (nth_error dates i) as [m|] eqn:Em; [|apply nth_error_None in Em; assert (S i < length dates)%nat by (apply nth_error_Some; congruence); lia].
  pose proof (Hev i m b Em Hb) as E. assert (valid_date c m) as Vm by (apply (proj1 (Forall_forall _ _) Hv); eapply nth_error_In; exact Em).
  assert (valid_date c b) as Vb by (apply (proj1 (Forall_forall _ _) Hv); eapply nth_error_In; exact Hb).
  rewrite (dav_A c m b (valid_start m Vm) (valid_good _ _ Vb)) in E. injection E as E. pose proof (IH m eq_refl). lia.
Qed.
End Axis.

Lemma qdiffs_even : forall l v0 d, (forall i v, nth_error l i = Some v -> v == v0 + inject_Z (Z.of_nat i) * d)%Q -> Forall (fun e => e == d)%Q (qdiffs l) /\ length (qdiffs l) = pred (length l).
Proof.
  unfold qdiffs. intros l v0 d H. split.
  - apply Forall_forall. intros e He. apply in_map_iff in He as ([a b] & <- & Hab). apply In_nth_error in Hab as (n & Hn). 
    assert (nth_error l n = Some a /\ nth_error l (S n) = Some b) as [Ha Hb].
    { clear H. revert n Hn. destruct l as [|x l]; intros n Hn; [destruct n; discriminate|]. cbn [tl] in Hn. revert x n Hn. induction l as [|y l IH]; intros x n Hn; [destruct n; discriminate|].
      destruct n as [|n]; [injection Hn as <- <-; split; reflexivity|]. cbn in Hn. destruct (IH y n Hn) as [E1 E2]. split; [exact E1|exact E2]. }
    rewrite (H _ _ Ha), (H _ _ Hb). rewrite Nat2Z.inj_succ. unfold Z.succ. rewrite inject_Z_plus. ring.
  - rewrite map_length, combine_length. destruct l as [|x l]; [reflexivity|]. cbn [tl length pred]. lia.
Qed.
Lemma delta_even t v0 d : (forall i v, nth_error (t_vals t) i = Some v -> v == v0 + inject_Z (Z.of_nat i) * d)%Q ->
  (length (t_vals t) <= 1)%nat /\ delta t = Some 0%Q \/ (2 <= length (t_vals t))%nat /\ exists e, delta t = Some e /\ (e == d)%Q.
Proof.
  intros H. destruct (qdiffs_even _ _ _ H) as [HF Hl]. unfold delta. destruct (qdiffs (t_vals t)) as [|e r] eqn:E; [left; split; [cbn [length] in Hl; lia|reflexivity]|].
  right. split; [cbn [length] in Hl; lia|]. exists e. inversion HF as [|? ? He Hr]; subst. split; [|exact He].
  assert (forallb (fun x => close x e) (e :: r) = true) as ->; [|reflexivity]. apply forallb_forall. intros x Hx. assert (x == e)%Q as Ex by (rewrite He; exact (proj1 (Forall_forall _ _) HF x Hx)).
  unfold close. apply Qle_bool_iff. rewrite Ex. assert (e - e == 0)%Q as -> by ring. change (Qabs 0) with 0%Q. pose proof (Qabs_nonneg e). lra.
Qed.

Section Made.
Context (c : cal) (t1 t2 : taxis) (C1 : complete t1) (C2 : complete t2) (K1 : t_cal t1 = c) (K2 : t_cal t2 = c) (Hu : t_units t1 = t_units t2).
Context (dates : list date) (s : Z) (Hs : 0 < s) (Hv : Forall (valid_date c) dates) (Hev : evenly c dates s).
Context (a b : list date) (E1 : dates = t_dates t1 ++ a) (E2 : dates = b ++ t_dates t2) (N1 : t_dates t1 <> []) (N2 : t_dates t2 <> []).
Notation A := (CalProofs.A c).
Notation f := (unitfactor (t_units t1)).
Notation step := (s # f)%Q.

Lemma vals_of t : complete t -> t_cal t = c -> t_vals t = map (fun d => secs c (get_dates (t_start t)) d (t_units t)) (t_dates t).
Proof.
  intros (M & S & G & V & E) Hc. rewrite Hc in *. assert (map Some (t_vals t) = map Some (map (fun d => secs c (get_dates (t_start t)) d (t_units t)) (t_dates t))) as H.
  { rewrite <- E, map_map. apply map_ext_in. intros d Hd. rewrite M. apply value_is; [exact G|]. exact (proj1 (Forall_forall _ _) V d Hd). }
  clear -H. revert H. generalize (map (fun d => secs c (get_dates (t_start t)) d (t_units t)) (t_dates t)). induction (t_vals t) as [|x l IH]; intros [|y r] H; cbn in H; try discriminate; [reflexivity|].
  injection H as -> H. f_equal. apply IH. exact H.
Qed.
Lemma len_vals t : complete t -> t_cal t = c -> length (t_vals t) = length (t_dates t).
Proof. intros C K. rewrite (vals_of t C K). apply map_length. Qed.
Lemma first_date : exists d0 r, dates = d0 :: r /\ nth_error dates 0 = Some d0 /\ nth_error (t_dates t1) 0 = Some d0.
Proof. destruct (t_dates t1) as [|d0 r]; [contradiction|]. exists d0, (r ++ a). rewrite E1. split; [reflexivity|]. split; reflexivity. Qed.
Lemma even_vals t k d0 : complete t -> t_cal t = c -> t_units t = t_units t1 -> nth_error dates 0 = Some d0 -> (forall i d, nth_error (t_dates t) i = Some d -> nth_error dates (k + i) = Some d) ->
  forall i v, nth_error (t_vals t) i = Some v -> (v == (((A d0 + Z.of_nat k * s - A (get_dates (t_start t))) # f)) + inject_Z (Z.of_nat i) * step)%Q.
Proof.
  intros C K U H0 Hd i v Hiv. rewrite (vals_of t C K) in Hiv. rewrite nth_error_map in Hiv. destruct (nth_error (t_dates t) i) as [d|] eqn:Ed; [|discriminate]. injection Hiv as <-.
  unfold secs. rewrite U. rewrite (even_at c dates s Hv Hev (k + i) d0 d H0 (Hd i d Ed)). unfold Qeq, Qplus, Qmult, inject_Z. cbn [Qnum Qden]. rewrite Pos.mul_1_l. rewrite Pos2Z.inj_mul. nia.
Qed.

Theorem made : Z.max (zlen (t_dates t1)) (zlen (t_dates t2)) > 1 -> forall faxis,
  exists T, multi_times faxis t1 t2 = Some T /\ t_dates T = dates /\ t_class T = t_class t1 /\ t_start T = t_start t1 /\ t_units T = t_units t1 /\ complete T /\ t_cal T = c.
Proof.
  intros Hmax faxis. destruct first_date as (d0 & r0 & D0 & D1 & D2). unfold multi_times. destruct (Z.eqb_spec (Z.max (zlen (t_dates t1)) (zlen (t_dates t2))) 1) as [X|_]; [change TimeSearchModel.zlen with (@IndexSpec.zlen) in X; lia|].
  assert (same_unit (t_units t1) (t_units t2) = true) as -> by (rewrite Hu; apply Pos.eqb_refl). cbn [negb].
  pose proof (delta_even t1 _ _ (even_vals t1 0 d0 C1 K1 eq_refl D1 ltac:(intros i d Hd; cbn [Nat.add]; rewrite E1, nth_error_app1; [exact Hd|apply nth_error_Some; congruence]))) as P1.
  pose proof (delta_even t2 _ _ (even_vals t2 (length b) d0 C2 K2 (eq_sym Hu) D1 ltac:(intros i d Hd; rewrite E2, nth_error_app2 by lia; replace (length b + i - length b)%nat with i by lia; exact Hd))) as P2.
  rewrite (len_vals t1 C1 K1) in P1. rewrite (len_vals t2 C2 K2) in P2.
  assert (exists e1 e2, delta t1 = Some e1 /\ delta t2 = Some e2 /\ ((if Qle_bool e2 e1 then e1 else e2) == step)%Q) as (e1 & e2 & -> & -> & Edt).
  { assert (0 < step)%Q as Hpos by (unfold Qlt; cbn; lia).
    destruct P1 as [[L1 ->]|[L1 (e1 & -> & F1)]]; destruct P2 as [[L2 ->]|[L2 (e2 & -> & F2)]].
    - exfalso. unfold zlen in Hmax. lia.
    - exists 0%Q, e2. split; [reflexivity|]. split; [reflexivity|]. destruct (Qle_bool e2 0) eqn:Q; [|exact F2]. apply Qle_bool_iff in Q. lra.
    - exists e1, 0%Q. split; [reflexivity|]. split; [reflexivity|]. destruct (Qle_bool 0 e1) eqn:Q; [exact F1|]. exfalso. assert (Qle_bool 0 e1 = true) by (apply Qle_bool_iff; lra). congruence.
    - exists e1, e2. split; [reflexivity|]. split; [reflexivity|]. destruct (Qle_bool e2 e1); assumption. }
  cbn [bind]. set (dt := if Qle_bool e2 e1 then e1 else e2) in *. clearbody dt. cbv zeta.
  assert (0 < dt)%Q as Hdt by (rewrite Edt; unfold Qlt; cbn; lia).
  assert (Qle_bool dt 0 = false) as -> by (apply not_true_is_false; intros Q; apply Qle_bool_iff in Q; lra).
  set (w1 := secs c (get_dates (t_start t1)) d0 (t_units t1)).
  assert (hd_error (t_vals t1) = Some w1) as ->. { rewrite (vals_of t1 C1 K1). destruct (t_dates t1); [discriminate|]. injection D2 as ->. reflexivity. }
  cbn [bind].
  assert (exists dn pre, t_dates t2 = pre ++ [dn]) as (dn & pre & Ed). { destruct (exists_last N2) as (pre & dn & Ed). exists dn, pre. exact Ed. }
  set (n := (length dates - 1)%nat). assert (nth_error dates n = Some dn) as Hn.
  { unfold n. rewrite E2, Ed, app_assoc, app_length. cbn [length]. rewrite nth_error_app2 by lia. replace (_ - _)%nat with 0%nat by lia. reflexivity. }
  assert (bind (reltime t2 (t_start t1) (t_units t2)) (fun l => hd_error (rev l)) = Some (secs c (get_dates (t_start t1)) dn (t_units t1))) as Er.
  { unfold reltime. rewrite K2. pose proof C2 as (M & _ & _ & V & _). rewrite K2 in M, V. rewrite M. pose proof C1 as (_ & _ & G & _). rewrite K1 in G.
    assert (map (fun d => date_as_val c (t_start t1) (t_units t2) (mask_date (every_field c) d)) (t_dates t2) = map Some (map (fun d => secs c (get_dates (t_start t1)) d (t_units t1)) (t_dates t2))) as ->.
    { rewrite map_map. apply map_ext_in. intros d Hd. rewrite <- Hu. apply (value_is c (t_start t1) (t_units t1) d G). exact (proj1 (Forall_forall _ _) V d Hd). }
    rewrite seq_Some. cbn [bind]. rewrite Ed, map_app, rev_app_distr. reflexivity. }
  destruct (reltime t2 (t_start t1) (t_units t2)) as [l|]; [|discriminate]. cbn [bind] in *. rewrite Er. cbn [bind].
  set (ntf := ((secs c (get_dates (t_start t1)) dn (t_units t1) - w1) / dt)%Q).
  assert (ntf == inject_Z (Z.of_nat n))%Q as Entf.
  { unfold ntf. apply Qeq_trans with ((inject_Z (Z.of_nat n) * dt) / dt)%Q; [|field; lra]. apply Qmult_comp; [|reflexivity]. rewrite Edt. unfold w1, secs.
    rewrite (even_at c dates s Hv Hev n d0 dn D1 Hn). unfold Qeq, Qminus, Qplus, Qopp, Qmult, inject_Z. cbn [Qnum Qden]. rewrite Pos.mul_1_l, Pos2Z.inj_mul. nia. }
  rewrite (round_exact _ _ Entf).
  assert (Qle_bool (Qabs (ntf - inject_Z (Z.of_nat n))) ((1 # 10) * dt) = true) as ->.
  { apply Qle_bool_iff. rewrite Entf. assert (inject_Z (Z.of_nat n) - inject_Z (Z.of_nat n) == 0)%Q as -> by ring. change (Qabs 0) with 0%Q. lra. }
  cbn [negb]. destruct (Z.leb_spec (Z.of_nat n + 1) 0); [lia|].
  apply (new_values c t1 dates _ K1 C1 Hv).
  assert (Z.of_nat n + 1 = Z.of_nat (length dates)) as -> by (unfold n; rewrite D0; cbn; lia).
  apply Forall2_intro_nth; [rewrite map_length, length_arange; lia|]. intros i v d Hi Hd.
  assert (i < length dates)%nat as Hl by (apply nth_error_Some; congruence).
  assert (nth_error (arange 0 (Z.of_nat (length dates)) 1) i = Some (Z.of_nat i)) as Ha.
  { assert (elem (arange 0 (Z.of_nat (length dates)) 1) (Z.of_nat i) (Z.of_nat i)) as [_ H'] by (apply elem_arange01; lia). rewrite Nat2Z.id in H'. exact H'. }
  rewrite nth_error_map, Ha in Hi. injection Hi as <-. rewrite Edt. unfold w1, secs. rewrite (even_at c dates s Hv Hev i d0 d D1 Hd).
  unfold Qeq, Qplus, Qmult, inject_Z. cbn [Qnum Qden]. rewrite Pos.mul_1_l, Pos2Z.inj_mul. nia.
Qed.
End Made.

Section Single.
Context (c : cal) (faxis t1 t2 : taxis) (Cf : complete faxis) (C1 : complete t1) (Kf : t_cal faxis = c) (K1 : t_cal t1 = c).
Context (times : list date) (o : Z) (Hv : Forall (valid_date c) times) (Hoff : Forall2 (fun d x => c_date_as_val c d x = Some o) (t_dates faxis) times).
Context (d1 : date) (E1 : t_dates t1 = [d1]) (L2 : length (t_dates t2) = 1%nat) (H1 : hd_error times = Some d1) (Hst : hd_error (t_dates faxis) = Some (get_dates (t_start faxis))).
Notation A := (CalProofs.A c).
Lemma offsets : Forall2 (fun d x => A x = A d + o) (t_dates faxis) times.
Proof.
  pose proof Cf as (_ & _ & _ & V & _). rewrite Kf in V. clear -Hoff Hv V. revert Hv V. generalize dependent times. generalize (t_dates faxis). clear. intros l0 r0 Hoff. induction Hoff as [|d x l r H HF IH]; intros Hv V; [constructor|].
  inversion Hv as [|? ? A1 A2]; inversion V as [|? ? B1 B2]; subst. constructor; [|apply IH; [exact HF|exact A2|exact B2]].
  rewrite (dav_A c d x (valid_start c d B1) (valid_good _ _ A1)) in H. injection H as H. lia.
Qed.
Theorem made_single : exists T, multi_times faxis t1 t2 = Some T /\ t_dates T = times /\ t_class T = t_class faxis /\ t_start T = t_start faxis /\ t_units T = t_units faxis /\ complete T /\ t_cal T = c.
Proof.
  unfold multi_times. rewrite E1. change (zlen [d1]) with 1. assert (zlen (t_dates t2) = 1) as L2' by (unfold zlen; lia).
  change (TimeSearchModel.zlen (t_dates t2)) with (zlen (t_dates t2)). rewrite L2'. cbn [Z.max Z.compare Pos.compare Pos.compare_cont Z.eqb Pos.eqb].
  unfold reltime. rewrite E1, K1. pose proof C1 as (M & _ & _ & V & _). rewrite K1 in M, V. rewrite E1 in V. rewrite M. assert (valid_date c d1) as V1 by (exact (Forall_inv V)). pose proof Cf as (_ & _ & G & _). rewrite Kf in G.
  cbn [map sequence]. pose proof (value_is _ (t_start faxis) (t_units faxis) d1 G V1) as Ev. unfold axis_value in Ev. rewrite Ev. cbn [bind hd_error].
  apply (new_values c faxis times _ Kf Cf Hv). rewrite (vals_of c faxis Cf Kf), map_map.
  pose proof offsets as Ho. assert (CalProofs.A c d1 = CalProofs.A c (get_dates (t_start faxis)) + o) as Eo.
  { destruct Ho as [|d x l r H _]; [discriminate|]. injection H1 as ->. injection Hst as ->. exact H. }
  clear -Ho Eo. induction Ho as [|d x l r H _ IH]; [constructor|]. cbn [map]. constructor; [|exact IH].
  unfold secs. rewrite H, Eo. unfold Qeq, Qplus. cbn [Qnum Qden]. rewrite Pos2Z.inj_mul. nia.
Qed.
End Single.
