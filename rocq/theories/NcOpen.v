(** Proofs about opening a file. *)
From Coq Require Import ZArith List Bool QArith_base String Ascii Lia Permutation.
From Verif Require Import SortSpec IndexModel IndexSpec IndexProofs ArrModel ArrProofs ViewModel ViewSpec ViewProofs AxisModel AxisSpec AxisProofs VarOpsModel VarOpsSpec VarOpsProofs VarOpsLemmas UfuncModel
  StencilModel ReduceSpec RespondProofs ChunkProofs LoopProofs InterpView DatasetModel DatasetSpec DatasetProofs DatasetProps NcModel NcSpec NcProofs.
Import ListNotations.
Open Scope Z_scope.
Open Scope list_scope.

(** ** swapping axes *)
Definition update (g : axobj -> axobj) (r : string * axobj) (b : axobj) : axobj := if String.eqb (a_name b) (fst r) then snd r else g b.
Lemma swap_step axes n new : forall g, NoDup (map a_name axes) -> ~ In (lower n) reserved -> (forall b, In b axes -> lower (a_name b) = lower n -> a_name b = n) ->
  match whichaxis axes n with Some i => set_at (map g axes) i new | None => map g axes end = map (update g (n, new)) axes.
Proof.
  induction axes as [|a axes IH]; intros g N R C; [reflexivity|]. cbn [whichaxis map]. inversion N as [|? ? N1 N2]; subst.
  assert (E : has_alias a n = String.eqb (a_name a) n).
  { unfold has_alias. assert (M : mem (lower n) reserved = false) by (destruct (mem (lower n) reserved) eqn:M; [apply mem_In in M; contradiction | reflexivity]). rewrite M, orb_false_r.
    destruct (String.eqb_spec (a_name a) n) as [->|K]; [apply String.eqb_refl|]. destruct (String.eqb_spec (lower (a_name a)) (lower n)) as [L|L]; [|reflexivity]. exfalso. apply K, C; [now left | exact L]. }
  rewrite E. unfold update at 1. cbn [fst snd]. destruct (String.eqb_spec (a_name a) n) as [En|En].
  - cbn [set_at]. f_equal. apply map_ext_in. intros b Hb. unfold update. cbn [fst snd]. destruct (String.eqb_spec (a_name b) n) as [Eb|_]; [|reflexivity]. exfalso. apply N1. rewrite En, <- Eb. now apply in_map.
  - rewrite <- (IH g N2 R (fun b H => C b (or_intror H))). destruct (whichaxis axes n); reflexivity.
Qed.
Lemma swap_spec axes reps : NoDup (map a_name axes) -> (forall r, In r reps -> ~ In (lower (fst r)) reserved /\ forall b, In b axes -> lower (a_name b) = lower (fst r) -> a_name b = fst r) ->
  swap_axes reps axes = map (fold_left update reps (fun b => b)) axes.
Proof.
  intros N H. unfold swap_axes.
  assert (G : forall g, fold_left (fun new r => match whichaxis axes (fst r) with Some i => set_at new i (snd r) | None => new end) reps (map g axes) = map (fold_left update reps g) axes).
  { induction reps as [|[n new] reps IH]; intros g; [reflexivity|]. cbn [fold_left fst snd].
    destruct (H (n, new) (or_introl eq_refl)) as [R C]. cbn [fst] in R, C. rewrite (swap_step axes n new g N R C). apply IH. intros r Hr. apply H. now right. }
  specialize (G (fun b => b)). rewrite map_id in G. exact G.
Qed.
Lemma updates reps : forall g b, (exists r, In r reps /\ fst r = a_name b /\ fold_left update reps g b = snd r) \/ ((forall r, In r reps -> fst r <> a_name b) /\ fold_left update reps g b = g b).
Proof.
  induction reps as [|r reps IH]; intros g b; [right; split; [intros ? [] | reflexivity]|]. cbn [fold_left]. destruct (IH (update g r) b) as [(r' & H1 & H2 & H3)|[H1 H2]].
  - left. exists r'. split; [now right|]. auto.
  - rewrite H2. unfold update. destruct (String.eqb_spec (a_name b) (fst r)) as [E|E]; [left; exists r; split; [now left|]; auto|]. right. split; [|reflexivity]. intros r' [<-|H]; [congruence | now apply H1].
Qed.

Section Open.
Context (env : axenv) (Henv : env_ok env) (junk : list Z -> Q) (enc : string -> Z) (enc_inj : forall s t, enc s = enc t -> s = t) (dimc namedc : list Z).
Context (vars : list (vobj Q)) (Hst : storable env enc vars).
Context (kept dims : list axobj) (Hkept : all_axes vars kept) (Hdims : all_axes vars dims).
Notation dl := (map (fun a => (a_name a, axis_len (a_axis a))) dims).
Notation P := (axes_of vars).
Lemma P_name a b : In a P -> In b P -> a_name a = a_name b -> a = b.
Proof. apply Hst. Qed.
Definition dim_axis (a : axobj) : axis := let vals := indices_q (Z.to_nat (axis_len (a_axis a))) in Coord (MkCoord Dummy dimc (enc (a_name a)) vals [] [] (new_rtol env vals)).
Definition isdim (a b : axobj) : Prop := In a P /\ dim_obj env enc dimc 0 dl (a_name a) = Some b.
Lemma dim_obj_at (l : list axobj) : forall k a, In a l -> (forall b, In b l -> a_name b = a_name a -> b = a) -> exists i, nth_error l i = Some a /\
  dim_obj env enc dimc k (map (fun a => (a_name a, axis_len (a_axis a))) l) (a_name a) = Some (MkAx (k + Z.of_nat i) (a_name a) (dim_axis a)).
Proof.
  induction l as [|b l IH]; intros k a Ha H; [destruct Ha|]. cbn [map dim_obj]. destruct (String.eqb_spec (a_name b) (a_name a)) as [E|E].
  - apply H in E; [|now left]. subst b. exists 0%nat. split; [reflexivity|]. cbn [Z.of_nat]. rewrite Z.add_0_r. reflexivity.
  - destruct Ha as [->|Ha]; [congruence|]. destruct (IH (k + 1) a Ha (fun c Hc => H c (or_intror Hc))) as (i & Hi & Ei). exists (S i). split; [exact Hi|]. rewrite Ei. do 2 f_equal. lia.
Qed.
Lemma isdim_ex a : In a P -> exists b, isdim a b.
Proof.
  intros Ha. destruct (dim_obj_at dims 0 a) as (i & _ & E); [now apply Hdims | intros b Hb; apply P_name; [now apply Hdims | exact Ha] |]. eexists. split; [exact Ha | exact E].
Qed.
Lemma isdim_spec a b : isdim a b -> In a P /\ exists i, nth_error dims i = Some a /\ b = MkAx (Z.of_nat i) (a_name a) (dim_axis a).
Proof.
  intros [Ha E]. split; [exact Ha|]. destruct (dim_obj_at dims 0 a) as (i & Hi & E'); [now apply Hdims | intros c Hc; apply P_name; [now apply Hdims | exact Ha] |]. exists i. split; [exact Hi|]. rewrite E in E'. now injection E'.
Qed.
Lemma isdim_name a b : isdim a b -> a_name b = a_name a.
Proof. intros H. apply isdim_spec in H as (_ & i & _ & ->). reflexivity. Qed.
Lemma P_len a : In a P -> exists c, a_axis a = Coord c /\ c_vals c <> [] /\ axis_len (a_axis a) = zlen (c_vals c) /\ c_name c = enc (a_name a) /\ c_kind c <> Plain.
Proof. intros Ha. destruct Hst as (_ & HF & _). rewrite Forall_forall in HF. destruct (HF a Ha) as (_ & c & Ec & K & Nc & Ne & At). exists c. rewrite Ec. auto. Qed.
Lemma isdim_len a b : isdim a b -> axis_len (a_axis b) = axis_len (a_axis a).
Proof.
  intros H. apply isdim_spec in H as (Ha & i & _ & ->). destruct (P_len a Ha) as (c & Ec & _ & L & _). cbn. unfold zlen, indices_q. rewrite map_length, seq_length. rewrite Z2Nat.id; [reflexivity|]. rewrite L. unfold zlen. lia.
Qed.
Lemma isdim_fun a b b' : isdim a b -> isdim a b' -> b = b'.
Proof. intros [_ H] [_ H']. congruence. Qed.
Lemma isdim_id a a' b b' : isdim a b -> isdim a' b' -> a_id b = a_id b' -> a = a'.
Proof.
  intros H H' E. apply isdim_spec in H as (_ & i & Hi & ->). apply isdim_spec in H' as (_ & i' & Hi' & ->). cbn in E. apply Nat2Z.inj in E. congruence.
Qed.
Lemma isdim_range a b : isdim a b -> 0 <= a_id b < zlen dl.
Proof.
  intros H. apply isdim_spec in H as (_ & i & Hi & ->). cbn. unfold zlen. rewrite map_length. pose proof (proj1 (nth_error_Some dims i) ltac:(congruence)). lia.
Qed.

(** axes with different names belong to different dimensions *)
Definition named (b : axobj) : Prop := exists c, a_axis b = Coord c /\ c_kind c <> Plain /\ c_name c = enc (a_name b).
Lemma named_separate axes : Forall named axes -> NoDup (map a_name axes) -> separate (map a_axis axes).
Proof.
  intros HF N i j x y Hx Hy Hne. rewrite nth_error_map in Hx, Hy. destruct (nth_error axes i) as [a|] eqn:Ea; [|discriminate]. destruct (nth_error axes j) as [b|] eqn:Eb; [|discriminate]. cbn in Hx, Hy. injection Hx as <-. injection Hy as <-.
  rewrite Forall_forall in HF. destruct (HF a (nth_error_In _ _ Ea)) as (c & Ec & Kc & Nc). destruct (HF b (nth_error_In _ _ Eb)) as (d & Ed & Kd & Nd). rewrite Ec, Ed. cbn.
  assert (Hn : c_name c <> c_name d).
  { rewrite Nc, Nd. intros E. apply enc_inj in E. apply Hne. rewrite NoDup_nth_error in N. apply N; [rewrite map_length; apply nth_error_Some; congruence|]. rewrite !nth_error_map, Ea, Eb. cbn. now rewrite E. }
  destruct (c_kind c), (c_kind d); congruence.
Qed.
Lemma isdim_named a b : isdim a b -> named b.
Proof. intros H. apply isdim_spec in H as (_ & i & _ & ->). eexists. split; [reflexivity|]. split; [discriminate|reflexivity]. Qed.

(** *** the variables of the file *)
Notation allvars := (kept_vars vars kept).
Lemma all_in v a : In v allvars -> In a (v_axes v) -> In a P.
Proof. intros Hv Ha. apply (axes_kept vars kept Hkept). apply in_flat_map. eauto. Qed.
Lemma all_NoDup v : In v allvars -> NoDup (map a_name (v_axes v)).
Proof.
  intros Hv. apply NoDup_names; [|intros a b Ha Hb; apply P_name; eapply all_in; eassumption].
  assert (HF : Forall (file_axis enc) (v_axes v)) by (apply Forall_forall; intros a Ha; destruct Hst as (_ & HF & _); rewrite Forall_forall in HF; apply HF; eapply all_in; eassumption).
  assert (R : exists D, responds env (var_of v) D).
  { apply in_app_iff in Hv as [Hv|Hv]; [apply Hst in Hv; exact Hv|]. apply in_map_iff in Hv as (a & <- & _). eexists. apply axis_var_responds. }
  destruct R as (D & S & _). exact (separate_NoDup enc (v_axes v) HF S).
Qed.
Definition read_as (v w : vobj Q) : Prop := v_name w = v_name v /\ Forall2 isdim (v_axes v) (v_axes w) /\ forall D, responds env (var_of v) D -> responds env (var_of w) D.
Lemma Forall2_names (R : axobj -> axobj -> Prop) (l l' : list axobj) : (forall a b, R a b -> a_name b = a_name a) -> Forall2 R l l' -> map a_name l' = map a_name l.
Proof. intros H HF. induction HF as [|a b l l' Hab HF IH]; cbn; [reflexivity|]. now rewrite IH, (H a b Hab). Qed.
Lemma isdims_named l l' : Forall2 isdim l l' -> Forall named l'.
Proof. intros HF. induction HF as [|a b l l' H HF IH]; constructor; [exact (isdim_named a b H) | exact IH]. Qed.
Lemma isdims_len l l' : Forall2 isdim l l' -> map axis_len (map a_axis l') = map axis_len (map a_axis l).
Proof. intros HF. induction HF as [|a b l l' H HF IH]; cbn [map]; [reflexivity|]. now rewrite IH, (isdim_len a b H). Qed.
Lemma plus_position : forall ns start count p, Forall2 (fun n sc => 0 <= fst sc /\ 0 < snd sc /\ fst sc + snd sc <= n) ns (combine start count) -> List.length start = List.length count ->
  position count p -> position ns (plus start p).
Proof.
  induction ns as [|n ns IH]; intros start count p HF L Hp.
  - destruct start, count; try discriminate; [|inversion HF]. inversion Hp; subst. constructor.
  - destruct start as [|s start], count as [|c count]; try discriminate; [inversion HF|]. cbn [combine] in HF. inversion HF as [|? ? ? ? (A & B & C) HF']; subst. inversion Hp as [|? x ? p' Hx Hp']; subst.
    unfold plus. cbn [combine map]. cbn [fst snd] in *. constructor; [lia|]. fold (plus start p'). apply (IH start count); auto.
Qed.
Lemma read_one v nv : In v allvars -> stored env v nv -> exists w, make_ncvar env enc dimc dl nv = Some w /\ read_as v w.
Proof.
  intros Hv (S1 & S2 & S3). assert (HE : exists bs, sequence (map (dim_obj env enc dimc 0 dl) (map a_name (v_axes v))) = Some bs /\ Forall2 isdim (v_axes v) bs).
  { rewrite map_map. destruct (sequence_map_Forall2 (fun a => dim_obj env enc dimc 0 dl (a_name a)) (v_axes v)) as (bs & E & HF).
    - intros a Ha. destruct (isdim_ex a (all_in v a Hv Ha)) as (b & _ & E). eauto.
    - exists bs. split; [exact E|]. assert (G : forall a, In a (v_axes v) -> In a P) by (intros a; apply (all_in v a Hv)). clear -HF G. induction HF as [|a b l l' H HF IH]; constructor; [split; [apply G; now left | exact H] | apply IH; intros x Hx; apply G; now right]. }
  destruct HE as (bs & E & HF). unfold make_ncvar. rewrite S2, E. cbn [option_map]. eexists. split; [reflexivity|]. split; [exact S1|]. split; [exact HF|]. intros D HD. split; cbn.
  - apply named_separate; [|rewrite (Forall2_names isdim _ _ isdim_name HF); now apply all_NoDup]. exact (isdims_named _ _ HF).
  - intros start count HP L. eexists. split; [reflexivity|]. split; [reflexivity|]. intros p Hp. cbn. apply (S3 D HD). unfold var_shape. cbn.
    rewrite <- (isdims_len _ _ HF).
    apply (plus_position _ start count p); auto. apply (proj2 (Forall2_map_l _ _ _ _)). exact HP.
Qed.
Lemma read_all nvs : Forall2 (stored env) allvars nvs -> exists ws, sequence (map (make_ncvar env enc dimc dl) nvs) = Some ws /\ Forall2 read_as allvars ws.
Proof.
  intros HF. assert (G : forall v, In v allvars -> In v allvars) by auto. revert HF G. generalize allvars at 1 2 4. intros l HF. induction HF as [|v nv l nvs H HF IH]; intros G; [exists []; split; constructor|].
  destruct (read_one v nv (G v (or_introl eq_refl)) H) as (w & E & Hw). destruct (IH (fun x Hx => G x (or_intror Hx))) as (ws & Es & Hws). exists (w :: ws). cbn [map sequence]. rewrite E, Es. split; [reflexivity|]. now constructor.
Qed.

(** *** the dataset of all of them *)
Context (ws : list (vobj Q)) (Hws : Forall2 read_as allvars ws).
Context (next0 : Z) (Hob : objects P next0).
Lemma F2_In_l {A B} (R : A -> B -> Prop) l l' a : Forall2 R l l' -> In a l -> exists b, In b l' /\ R a b.
Proof. intros HF. induction HF as [|x y l l' H HF IH]; intros []; [subst; exists y; split; [now left | exact H] | destruct (IH H0) as (b & Hb & R'); exists b; split; [now right | exact R']]. Qed.
Lemma F2_In_r {A B} (R : A -> B -> Prop) l l' b : Forall2 R l l' -> In b l' -> exists a, In a l /\ R a b.
Proof. intros HF. induction HF as [|x y l l' H HF IH]; intros []; [subst; exists x; split; [now left | exact H] | destruct (IH H0) as (a & Hb & R'); exists a; split; [now right | exact R']]. Qed.
Lemma dims_of b : In b (axes_of ws) <-> exists a, isdim a b.
Proof.
  split.
  - intros H. apply in_flat_map in H as (w & Hw & Hb). destruct (F2_In_r _ _ _ w Hws Hw) as (v & Hv & _ & HF & _). destruct (F2_In_r _ _ _ b HF Hb) as (a & _ & R). eauto.
  - intros (a & H). pose proof (proj1 H) as Ha. apply (axes_kept vars kept Hkept) in Ha. apply in_flat_map in Ha as (v & Hv & Ha). destruct (F2_In_l _ _ _ v Hws Hv) as (w & Hw & _ & HF & _).
    destruct (F2_In_l _ _ _ a HF Ha) as (b' & Hb' & R). rewrite (isdim_fun a b b' H R). apply in_flat_map. eauto.
Qed.
Lemma names_as (R : vobj Q -> vobj Q -> Prop) l l' : (forall v w, R v w -> v_name w = v_name v) -> Forall2 R l l' -> map v_name l' = map v_name l.
Proof. intros H HF. induction HF as [|v w l l' Hvw HF IH]; cbn; [reflexivity|]. now rewrite IH, (H v w Hvw). Qed.
Lemma ws_names : map v_name ws = map v_name allvars.
Proof. apply (names_as read_as); [|exact Hws]. intros v w (H & _). exact H. Qed.
Lemma ws_well_named : well_named ws.
Proof.
  destruct (kept_ok env enc vars next0 Hst Hob kept Hkept) as ((N1 & N2 & _) & _ & _). unfold well_named. rewrite ws_names. split; [exact N1|]. split; [exact N2|].
  intros b b' H H' E. apply dims_of in H as (a & H). apply dims_of in H' as (a' & H'). rewrite (isdim_name a b H), (isdim_name a' b' H') in E. assert (a = a') by (apply P_name; [apply H | apply H' | exact E]). subst a'. exact (isdim_fun a b b' H H').
Qed.
Lemma ws_objects : objects (axes_of ws) (zlen dl).
Proof.
  split.
  - intros b b' H H' E. apply dims_of in H as (a & H). apply dims_of in H' as (a' & H'). assert (a = a') by exact (isdim_id a a' b b' H H' E). subst a'. exact (isdim_fun a b b' H H').
  - intros b H. apply dims_of in H as (a & H). apply (isdim_range a b H).
Qed.

(** *** the axes found *)
Definition newaxis (j : Z) (a : axobj) : axobj := let vals := axis_vals (a_axis a) in MkAx j (a_name a) (Coord (MkCoord Named namedc (enc (a_name a)) vals [] [] (new_rtol env vals))).
Fixpoint reps_of (i : Z) (l : list axobj) : list (string * axobj) :=
  match l with [] => [] | a :: l => if is_dummy a then reps_of (i + 1) l else (a_name a, newaxis i a) :: reps_of (i + 1) l end.
Lemma axis_named a v : In a P -> In v allvars -> v_name v = a_name a -> v = axis_var a /\ is_dummy a = false.
Proof.
  intros Ha Hv E. apply in_app_iff in Hv as [Hv|Hv]; [exfalso; destruct Hst as (_ & _ & _ & N & _); exact (N v a Hv Ha E)|].
  apply in_map_iff in Hv as (b & <- & Hb). apply filter_In in Hb as [Hb D]. assert (b = a) by (apply P_name; [now apply Hkept | exact Ha | exact E]). subst b. split; [reflexivity|]. now apply negb_true_iff in D.
Qed.
Lemma axis_found a : In a P -> is_dummy a = false -> In (axis_var a) allvars.
Proof. intros Ha D. apply in_app_iff. right. apply in_map. apply filter_In. rewrite D. split; [now apply Hkept | reflexivity]. Qed.
Lemma vals_read (r : arr Q) (a : axobj) : In a P -> array_is r [axis_len (a_axis a)] (fun p => nth (Z.to_nat (hd 0 p)) (axis_vals (a_axis a)) 0%Q) ->
  map (fun k => val r [k]) (arange 0 (hd 0 (shape r)) 1) = axis_vals (a_axis a).
Proof.
  intros Ha [Hs Hv]. rewrite Hs. cbn [hd]. destruct (P_len a Ha) as (c & Ec & _ & L & _). rewrite L in *. clear L Hs. rewrite Ec in *. cbn [axis_vals] in *. 
  apply list_ext. intros k x. rewrite elem_map. unfold elem at 2. split.
  - intros (y & Hy & ->). apply elem_arange01 in Hy as [-> Hk]. split; [lia|]. rewrite Hv by (constructor; [lia|constructor]). cbn [hd]. apply nth_error_nth'. unfold zlen in Hk. lia.
  - intros [K Hn]. assert (Hk : 0 <= k < zlen (c_vals c)) by (unfold zlen; pose proof (proj1 (nth_error_Some (c_vals c) (Z.to_nat k)) ltac:(congruence)); lia).
    exists k. split; [apply elem_arange01; auto|]. rewrite Hv by (constructor; [lia|constructor]). cbn [hd]. symmetry. now apply nth_error_nth.
Qed.
Lemma found ds : ds_vars ds = ws -> forall origs axs i, Forall2 isdim origs axs -> find_axes env junk enc namedc ds i axs = Some (reps_of i origs).
Proof.
  intros Ed origs axs i HF. revert i. induction HF as [|a b origs axs H HF IH]; intros i; [reflexivity|]. cbn [find_axes reps_of]. rewrite (isdim_name a b H), Ed. pose proof (proj1 H) as Ha.
  destruct (is_dummy a) eqn:Da.
  - replace (existsb (fun v => String.eqb (v_name v) (a_name a)) ws) with false; [apply IH|]. symmetry. apply not_true_iff_false. intros T. apply existsb_exists in T as (w & Hw & E). apply String.eqb_eq in E.
    destruct (F2_In_r _ _ _ w Hws Hw) as (v & Hv & En & _). rewrite En in E. destruct (axis_named a v Ha Hv E) as [_ D]. congruence.
  - destruct (F2_In_l _ _ _ (axis_var a) Hws (axis_found a Ha Da)) as (w & Hw & En & HFa & HR). cbn in En.
    replace (existsb (fun v => String.eqb (v_name v) (a_name a)) ws) with true; [|symmetry; apply existsb_exists; exists w; split; [exact Hw | rewrite En; apply String.eqb_refl]].
    assert (G : getitem ds (a_name a) = Some (DatasetModel.AVar w)). { unfold getitem. rewrite Ed, <- En, find_unique; [reflexivity | apply ws_well_named | exact Hw]. }
    rewrite G. inversion HFa as [|? b' ? t Hb' Ht E1 E2]. inversion Ht; subst. cbn [List.length Nat.eqb].
    destruct (responds_get env Henv junk (var_of w) _ (HR _ (axis_var_responds env a))) as (r & Er & Har). rewrite Er. cbn [bind].
    replace (var_shape (var_of w)) with [axis_len (a_axis a)] in Har by (unfold var_shape; cbn; rewrite <- E2; cbn; now rewrite (isdim_len a b' Hb')).
    rewrite (vals_read r a Ha Har), IH. reflexivity.
Qed.

(** *** putting them in *)
Lemma in_reps l : forall i r, In r (reps_of i l) -> exists k a, nth_error l k = Some a /\ is_dummy a = false /\ r = (a_name a, newaxis (i + Z.of_nat k) a).
Proof.
  induction l as [|a l IH]; intros i r H; [destruct H|]. cbn [reps_of] in H.
  assert (T : In r (reps_of (i + 1) l) -> exists k b, nth_error (a :: l) k = Some b /\ is_dummy b = false /\ r = (a_name b, newaxis (i + Z.of_nat k) b)).
  { intros G. destruct (IH (i + 1) r G) as (k & b & H1 & H2 & ->). exists (S k), b. split; [exact H1|]. split; [exact H2|]. do 2 f_equal. lia. }
  destruct (is_dummy a) eqn:D; [now apply T|]. destruct H as [<-|H]; [|now apply T]. exists 0%nat, a. split; [reflexivity|]. split; [exact D|]. do 2 f_equal. lia.
Qed.
Lemma reps_in l a : forall i, In a l -> is_dummy a = false -> exists r, In r (reps_of i l) /\ fst r = a_name a.
Proof.
  induction l as [|b l IH]; intros i H D; [destruct H|]. cbn [reps_of]. destruct H as [->|H].
  - rewrite D. eexists. split; [now left | reflexivity].
  - destruct (IH (i + 1) H D) as (r & Hr & E). exists r. split; [|exact E]. destruct (is_dummy b); [exact Hr | now right].
Qed.
Context (origs : list axobj) (Horigs : forall a, In a origs <-> In a P).
Notation base := (zlen dl).
Notation reps := (reps_of base origs).
Notation F := (fold_left update reps (fun b => b)).
Lemma F_spec a b : isdim a b -> (is_dummy a = true /\ F b = b) \/ (is_dummy a = false /\ exists k, nth_error origs k = Some a /\ F b = newaxis (base + Z.of_nat k) a).
Proof.
  intros H. pose proof (proj1 H) as Ha. destruct (updates reps (fun b => b) b) as [(r & Hr & E1 & E2)|[N E]].
  - right. destruct (in_reps origs base r Hr) as (k & a' & Hk & D & ->). cbn [fst snd] in E1, E2. assert (a' = a). { apply P_name; [apply Horigs; exact (nth_error_In _ _ Hk) | exact Ha | rewrite E1; exact (isdim_name a b H)]. } subst a'. split; [exact D|]. exists k. auto.
  - left. split; [|exact E]. destruct (is_dummy a) eqn:D; [reflexivity|]. exfalso. destruct (reps_in origs a base (proj2 (Horigs a) Ha) D) as (r & Hr & Er). apply (N r Hr). rewrite Er. symmetry. exact (isdim_name a b H).
Qed.
Definition isnew (a c : axobj) : Prop := exists b, isdim a b /\ c = F b.
Lemma isnew_name a c : isnew a c -> a_name c = a_name a.
Proof. intros (b & H & ->). destruct (F_spec a b H) as [[_ ->]|(_ & k & _ & ->)]; [exact (isdim_name a b H) | reflexivity]. Qed.
Lemma isnew_fun a c c' : isnew a c -> isnew a c' -> c = c'.
Proof. intros (b & H & ->) (b' & H' & ->). now rewrite (isdim_fun a b b' H H'). Qed.
Lemma isnew_In a c : isnew a c -> In a P.
Proof. intros (b & H & _). apply H. Qed.
Lemma isnew_id a a' c c' : isnew a c -> isnew a' c' -> a_id c = a_id c' -> a = a'.
Proof.
  intros (b & H & ->) (b' & H' & ->) E. pose proof (isdim_range a b H) as R. pose proof (isdim_range a' b' H') as R'.
  destruct (F_spec a b H) as [[_ K]|(_ & k & Hk & K)], (F_spec a' b' H') as [[_ K']|(_ & k' & Hk' & K')]; rewrite K, K' in E; cbn in E.
  - exact (isdim_id a a' b b' H H' E).
  - unfold newaxis in E; cbn [a_id] in E; lia.
  - unfold newaxis in E; cbn [a_id] in E; lia.
  - unfold newaxis in E; cbn [a_id] in E. assert (k = k') by lia. subst k'. congruence.
Qed.
Lemma isnew_range a c : isnew a c -> a_id c < base + zlen origs.
Proof.
  intros (b & H & ->). pose proof (isdim_range a b H) as R. destruct (F_spec a b H) as [[_ ->]|(_ & k & Hk & ->)]; [unfold zlen in *; lia|].
  unfold newaxis; cbn [a_id]. pose proof (proj1 (nth_error_Some origs k) ltac:(congruence)). unfold zlen. lia.
Qed.
Lemma isnew_len a c : isnew a c -> axis_len (a_axis c) = axis_len (a_axis a).
Proof.
  intros (b & H & ->). destruct (F_spec a b H) as [[_ ->]|(_ & k & _ & ->)]; [exact (isdim_len a b H)|]. destruct (P_len a (proj1 H)) as (c & Ec & _). unfold newaxis; cbn [a_axis]. rewrite Ec. reflexivity.
Qed.
Lemma isnew_named a c : isnew a c -> named c.
Proof.
  intros (b & H & ->). destruct (F_spec a b H) as [[_ ->]|(_ & k & _ & ->)]; [exact (isdim_named a b H)|]. eexists. split; [reflexivity|]. split; [discriminate|reflexivity].
Qed.
Lemma isnew_same a c : isnew a c -> same_axis a c.
Proof.
  intros H. split; [exact (isnew_name a c H)|]. split; [exact (isnew_len a c H)|]. destruct H as (b & H & ->).
  destruct (F_spec a b H) as [[D ->]|(D & k & _ & ->)]; rewrite D.
  - split; [|discriminate]. apply isdim_spec in H as (_ & i & _ & ->). reflexivity.
  - split; [reflexivity|]. reflexivity.
Qed.
Lemma isnews_len l l' : Forall2 isnew l l' -> map axis_len (map a_axis l') = map axis_len (map a_axis l).
Proof. intros HF. induction HF as [|a b l l' H HF IH]; cbn [map]; [reflexivity|]. now rewrite IH, (isnew_len a b H). Qed.
Lemma isnews_named l l' : Forall2 isnew l l' -> Forall named l'.
Proof. intros HF. induction HF as [|a b l l' H HF IH]; constructor; [exact (isnew_named a b H) | exact IH]. Qed.
Definition final_as (v u : vobj Q) : Prop := v_name u = v_name v /\ Forall2 isnew (v_axes v) (v_axes u) /\ forall D, responds env (var_of v) D -> responds env (var_of u) D.
Lemma replaced_ok (x : var axis Q) newaxes : map axis_len newaxes = map axis_len (var_axes x) -> exists y, replace_axes env junk x newaxes = Some y /\ var_axes y = newaxes.
Proof.
  intros E. unfold replace_axes. assert (L : List.length newaxes = List.length (var_axes x)) by (rewrite <- (map_length axis_len newaxes), E; apply map_length). rewrite L, Nat.eqb_refl.
  replace (forallb _ _) with true; [eexists; split; reflexivity|]. symmetry. clear L. revert E. generalize (var_axes x). induction newaxes as [|a l IH]; intros [|b m] E; try discriminate; [reflexivity|].
  cbn in E. injection E as E1 E2. cbn [combine forallb]. rewrite E1, Z.eqb_refl. now apply IH.
Qed.
Lemma put_one v w : In v allvars -> read_as v w -> exists u, replace_in env junk reps w = Some u /\ final_as v u.
Proof.
  intros Hv (E1 & HF & HR).
  assert (HN : Forall2 isnew (v_axes v) (map F (v_axes w))). { clear -HF. induction HF as [|a b l l' H HF IH]; cbn [map]; constructor; [exists b; auto | exact IH]. }
  assert (Es : swap_axes reps (v_axes w) = map F (v_axes w)).
  { apply swap_spec; [rewrite (Forall2_names isdim _ _ isdim_name HF); now apply all_NoDup|]. intros r Hr. destruct (in_reps origs base r Hr) as (k & a & Hk & _ & ->). cbn [fst]. apply nth_error_In in Hk. apply Horigs in Hk.
    destruct Hst as (_ & _ & _ & _ & C & R). split; [exact (R a Hk)|]. intros b Hb L. destruct (F2_In_r _ _ _ b HF Hb) as (a' & Ha' & D). rewrite (isdim_name a' b D) in *. f_equal. apply C; [apply D | exact Hk | exact L]. }
  unfold replace_in. rewrite Es. destruct (replaced_ok (var_of w) (map a_axis (map F (v_axes w)))) as (y & Ey & Ay).
  { cbn. transitivity (map axis_len (map a_axis (v_axes v))); [|symmetry; exact (isdims_len _ _ HF)]. exact (isnews_len _ _ HN). }
  rewrite Ey. cbn [option_map]. eexists. split; [reflexivity|]. split; [exact E1|]. split; [exact HN|]. intros D HD. unfold var_of. cbn [v_axes v_source].
  replace (Var (map a_axis (map F (v_axes w))) (var_source y)) with y by (destruct y; cbn in *; now rewrite Ay).
  apply (replace_keeps env Henv junk (var_of w) (map a_axis (map F (v_axes w))) D (HR D HD)); [|exact Ey].
  apply named_separate; [|rewrite (Forall2_names isnew _ _ isnew_name HN); now apply all_NoDup]. exact (isnews_named _ _ HN).
Qed.
Lemma put_all : exists us, sequence (map (replace_in env junk reps) ws) = Some us /\ Forall2 final_as allvars us.
Proof.
  assert (G : forall v, In v allvars -> In v allvars) by auto. revert Hws G. generalize allvars at 1 2 4. intros l HF. revert HF. generalize ws. intros ws' HF. induction HF as [|v w l ws' H HF IH]; intros G; [exists []; split; constructor|].
  destruct (put_one v w (G v (or_introl eq_refl)) H) as (u & E & Hu). destruct (IH (fun x Hx => G x (or_intror Hx))) as (us & Es & Hus). exists (u :: us). cbn [map sequence]. rewrite E, Es. split; [reflexivity|]. now constructor.
Qed.
Lemma us_ok l us : incl l allvars -> NoDup (map v_name l) -> Forall2 final_as l us -> well_named us /\ objects (axes_of us) (base + zlen origs).
Proof.
  intros Hl N HF. destruct (kept_ok env enc vars next0 Hst Hob kept Hkept) as ((_ & N2 & _) & _ & _).
  assert (HI : forall c, In c (axes_of us) -> exists a, isnew a c). { intros c H. apply in_flat_map in H as (u & Hu & Hc). destruct (F2_In_r _ _ _ u HF Hu) as (v & _ & _ & HA & _). destruct (F2_In_r _ _ _ c HA Hc) as (a & _ & R). eauto. }
  split; [|split].
  - unfold well_named. rewrite (names_as final_as l us (fun v u H => proj1 H) HF). split; [exact N|]. split; [intros H; apply N2; apply in_map_iff in H as (v & E & Hv); apply in_map_iff; exists v; auto|].
    intros c c' H H' E. destruct (HI c H) as (a & Ha). destruct (HI c' H') as (a' & Ha'). rewrite (isnew_name a c Ha), (isnew_name a' c' Ha') in E. assert (a = a') by (apply P_name; [exact (isnew_In a c Ha) | exact (isnew_In a' c' Ha') | exact E]). subst a'. exact (isnew_fun a c c' Ha Ha').
  - intros c c' H H' E. destruct (HI c H) as (a & Ha). destruct (HI c' H') as (a' & Ha'). assert (a = a') by exact (isnew_id a a' c c' Ha Ha' E). subst a'. exact (isnew_fun a c c' Ha Ha').
  - intros c H. destruct (HI c H) as (a & Ha). exact (isnew_range a c Ha).
Qed.
Lemma dropped us : Forall2 final_as allvars us ->
  forallb (fun n => existsb (fun v => String.eqb (v_name v) n) us) (map fst reps) = true /\ exists us1, filter (fun v => negb (mem (v_name v) (map fst reps))) us = us1 /\ Forall2 final_as vars us1.
Proof.
  intros HF. split.
  - apply forallb_forall. intros n Hn. apply in_map_iff in Hn as (r & <- & Hr). destruct (in_reps origs base r Hr) as (k & a & Hk & D & ->). cbn [fst]. apply nth_error_In in Hk. apply Horigs in Hk.
    destruct (F2_In_l _ _ _ (axis_var a) HF (axis_found a Hk D)) as (u & Hu & E & _). apply existsb_exists. exists u. split; [exact Hu|]. rewrite E. apply String.eqb_refl.
  - unfold kept_vars in HF. apply Forall2_app_inv_l in HF as (us1 & us2 & H1 & H2 & ->). exists us1. split; [|exact H1]. rewrite filter_app.
    assert (E1 : filter (fun v => negb (mem (v_name v) (map fst reps))) us1 = us1).
    { assert (Q1 : forall u, In u us1 -> negb (mem (v_name u) (map fst reps)) = true).
      { intros u Hu. destruct (F2_In_r _ _ _ u H1 Hu) as (v & Hv & E & _). apply negb_true_iff, not_true_iff_false. intros M. apply mem_In in M. apply in_map_iff in M as (r & Er & Hr). destruct (in_reps origs base r Hr) as (k & a & Hk & D & ->). cbn [fst] in Er. apply nth_error_In in Hk. apply Horigs in Hk.
        destruct Hst as (_ & _ & _ & N & _). apply (N v a Hv Hk). congruence. }
      clear -Q1. induction us1 as [|u us1 IH]; [reflexivity|]. cbn [filter]. rewrite (Q1 u (or_introl eq_refl)). f_equal. apply IH. intros x Hx. apply Q1. now right. }
    assert (E2 : filter (fun v => negb (mem (v_name v) (map fst reps))) us2 = []).
    { assert (Q2 : forall u, In u us2 -> negb (mem (v_name u) (map fst reps)) = false).
      { intros u Hu. destruct (F2_In_r _ _ _ u H2 Hu) as (v & Hv & E & _). apply in_map_iff in Hv as (a & <- & Ha). apply filter_In in Ha as [Ha D]. apply negb_true_iff in D. apply Hkept in Ha. apply negb_false_iff, mem_In. rewrite E. cbn.
        destruct (reps_in origs a base (proj2 (Horigs a) Ha) D) as (r & Hr & Er). rewrite <- Er. now apply in_map. }
      clear -Q2. induction us2 as [|u us2 IH]; [reflexivity|]. cbn [filter]. rewrite (Q2 u (or_introl eq_refl)). apply IH. intros x Hx. apply Q2. now right. }
    rewrite E1, E2. apply app_nil_r.
Qed.
End Open.

(** ** the whole *)
Lemma origs_of env enc dimc vars dims axs : (forall b, In b axs -> exists a, isdim env enc dimc vars dims a b) -> exists origs, Forall2 (isdim env enc dimc vars dims) origs axs.
Proof.
  induction axs as [|b axs IH]; intros H; [exists []; constructor|]. destruct (H b (or_introl eq_refl)) as (a & Ha). destruct (IH (fun x Hx => H x (or_intror Hx))) as (l & Hl). exists (a :: l). now constructor.
Qed.
Lemma open_spec env (Henv : env_ok env) junk enc (enc_inj : forall s t, enc s = enc t -> s = t) dimc namedc vars next0 kept dims f :
  storable env enc vars -> objects (axes_of vars) next0 -> all_axes vars kept -> all_axes vars dims ->
  f_dims f = map (fun a => (a_name a, axis_len (a_axis a))) dims -> Forall2 (stored env) (kept_vars vars kept) (f_vars f) ->
  exists ds, open_file env junk enc dimc namedc f = Some ds /\ Forall2 (same_variable env) vars (ds_vars ds).
Proof.
  intros Hst Hob Hk Hd Ed Hs. destruct (read_all env junk enc enc_inj dimc namedc vars Hst kept dims Hk Hd (f_vars f) Hs) as (ws & Ews & Hws).
  pose proof (ws_well_named env junk enc dimc namedc vars Hst kept dims Hk Hd ws Hws next0 Hob) as Wn. pose proof (ws_objects env junk enc dimc namedc vars Hst kept dims Hk Hd ws Hws) as Wo.
  destruct (made_dataset env Henv junk enc _ ws Wn Wo) as (ds0 & E0 & V0 & A0). unfold open_file, read_dataset. rewrite Ed, Ews. cbn [bind]. rewrite E0. cbn [bind]. unfold dims2axes.
  assert (HA : forall b, In b (ds_axes ds0) <-> In b (axes_of ws)) by (rewrite A0; apply collected, Wo).
  destruct (origs_of env enc dimc vars dims (ds_axes ds0)) as (origs & Ho). { intros b Hb. apply HA in Hb. now apply (dims_of env enc dimc vars kept dims Hk ws Hws). }
  assert (Horigs : forall a, In a origs <-> In a (axes_of vars)).
  { intros a. split; [intros Ha; destruct (F2_In_l _ _ _ a Ho Ha) as (b & _ & D); apply D|]. intros Ha. destruct (isdim_ex env junk enc dimc namedc vars Hst dims Hd a Ha) as (b & D).
    assert (Hb : In b (ds_axes ds0)) by (apply HA, (dims_of env enc dimc vars kept dims Hk ws Hws); eauto). destruct (F2_In_r _ _ _ b Ho Hb) as (a' & Ha' & D').
    assert (a' = a) by (apply (isdim_id env junk enc dimc namedc vars Hst dims Hd a' a b b D' D eq_refl)). now subst. }
  rewrite (found env Henv junk enc dimc namedc vars Hst kept dims Hk Hd ws Hws next0 Hob ds0 V0 origs (ds_axes ds0) _ Ho). cbn [bind]. rewrite V0.
  destruct (put_all env Henv junk enc enc_inj dimc namedc vars Hst kept dims Hk Hd ws Hws origs Horigs) as (us & Eus & Hus). rewrite Eus. cbn [bind].
  assert (L : zlen (ds_axes ds0) = zlen origs) by (unfold zlen; now rewrite (F2_len _ _ _ Ho)). rewrite L.
  destruct (us_ok env junk enc dimc namedc vars Hst kept dims Hk Hd next0 Hob origs Horigs (kept_vars vars kept) us (fun x H => H)) as [Un Uo]; [|exact Hus|].
  { destruct (kept_ok env enc vars next0 Hst Hob kept Hk) as ((N1 & _) & _). exact N1. }
  destruct (made_dataset env Henv junk enc _ us Un Uo) as (ds1 & E1 & V1 & _). rewrite E1. cbn [bind]. unfold ds_remove. rewrite V1.
  destruct (dropped env junk enc dimc namedc vars Hst kept dims Hk origs Horigs us Hus) as (B & us1 & Ef & Hf). rewrite B, Ef.
  destruct (us_ok env junk enc dimc namedc vars Hst kept dims Hk Hd next0 Hob origs Horigs vars us1) as [Un1 Uo1]; [intros x Hx; apply in_app_iff; now left | apply Hst | exact Hf |].
  destruct (made_dataset env Henv junk enc _ us1 Un1 Uo1) as (ds2 & E2 & V2 & _). exists ds2. split; [exact E2|]. rewrite V2.
  assert (G : forall a c, isnew env enc dimc namedc vars dims origs a c -> same_axis a c) by (intros a c; apply (isnew_same env junk enc dimc namedc vars Hst dims Hd origs Horigs)).
  eapply Forall2_impl; [|exact Hf]. intros v u (H1 & H2 & H3). split; [exact H1|]. split; [|exact H3]. eapply Forall2_impl; [exact G | exact H2].
Qed.
