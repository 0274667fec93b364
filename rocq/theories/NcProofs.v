(** Proofs about files. *)
From Coq Require Import ZArith List Bool QArith_base String Ascii Lia Permutation.
From Verif Require Import SortSpec IndexModel IndexSpec IndexProofs ArrModel ArrProofs ViewModel ViewSpec ViewProofs AxisModel AxisSpec AxisProofs VarOpsModel VarOpsSpec VarOpsProofs UfuncModel
  StencilModel ReduceSpec RespondProofs ChunkProofs LoopProofs InterpView DatasetModel DatasetSpec DatasetProofs DatasetProps NcModel NcSpec.
Import ListNotations.
Open Scope Z_scope.
Open Scope list_scope.

Lemma F2_len {A B} (R : A -> B -> Prop) l l' : Forall2 R l l' -> List.length l = List.length l'.
Proof. exact (ArrProofs.Forall2_len _ _ _). Qed.
Lemma mem_In s l : mem s l = true <-> In s l.
Proof. unfold mem. rewrite existsb_exists. split; [intros (x & Hx & E); apply String.eqb_eq in E; now subst | intros H; exists s; split; [exact H | apply String.eqb_refl]]. Qed.
Lemma distinct_NoDup l : distinct l = true <-> NoDup l.
Proof.
  induction l as [|s l IH]; cbn; [split; [constructor|reflexivity]|]. rewrite andb_true_iff, IH, negb_true_iff. split.
  - intros [H1 H2]. constructor; [|exact H2]. intros K. apply mem_In in K. congruence.
  - intros H. inversion H as [|? ? H1 H2]; subst. split; [|exact H2]. destruct (mem s l) eqn:E; [apply mem_In in E; contradiction | reflexivity].
Qed.

(** ** the axes of the file *)
Section Combine.
Context (env : axenv) (Henv : env_ok env) (enc : string -> Z) (enc_inj : forall s t, enc s = enc t -> s = t).
Context (P : list axobj) (HP : Forall (file_axis enc) P) (Hname : forall a b, In a P -> In b P -> a_name a = a_name b -> a = b).
Lemma can_map_self a : In a P -> can_map_obj env a a = Some (Some a).
Proof.
  intros Ha. rewrite Forall_forall in HP. destruct (HP a Ha) as (G & c & Ec & K & Nc & Ne & At). unfold can_map_obj. rewrite prefix_refl. unfold can_map_pc_obj.
  destruct (axis_eq (a_axis a) (a_axis a)); [reflexivity|].
  assert (E : explicit_class (a_axis a) = None) by (rewrite Ec; cbn; rewrite At; reflexivity). rewrite E.
  assert (M : axis_map_to env (a_axis a) (a_axis a) = Some (arange 0 (axis_len (a_axis a)) 1)).
  { apply sliced_map; [exact Henv | exact G | | apply sliced_refl; exact G]. apply range_arange. }
  rewrite M. cbv zeta. replace (zlen (arange 0 (axis_len (a_axis a)) 1)) with (axis_len (a_axis a)); [now rewrite Z.eqb_refl|].
  unfold zlen. rewrite length_arange. rewrite Z2Nat.id; [reflexivity|]. rewrite Ec. cbn. unfold zlen. lia.
Qed.
Lemma can_map_other a b : In a P -> In b P -> a <> b -> can_map_obj env a b = Some None.
Proof.
  intros Ha Hb Hne. assert (G : forall a b, In a P -> In b P -> a <> b -> can_map_pc_obj env a b = Some None).
  { clear a b Ha Hb Hne. intros a b Ha Hb Hne. assert (Nn : a_name a <> a_name b) by (intros E; apply Hne; now apply Hname). rewrite Forall_forall in HP.
    destruct (HP a Ha) as (_ & c & Ec & K & Nc & Ne & At). destruct (HP b Hb) as (_ & d & Ed & K' & Nd & Ne' & At').
    assert (Ncd : c_name c <> c_name d) by (rewrite Nc, Nd; intros E; apply Nn; now apply enc_inj).
    assert (U : axis_map_to env (a_axis a) (a_axis b) = None) by (apply unrelated_map; rewrite Ec, Ed; cbn; destruct (c_kind c), (c_kind d); congruence).
    assert (U' : axis_map_to env (a_axis b) (a_axis a) = None) by (apply unrelated_map; rewrite Ec, Ed; cbn; destruct (c_kind c), (c_kind d); congruence).
    unfold can_map_pc_obj. rewrite U, U'.
    assert (E : axis_eq (a_axis a) (a_axis b) = false).
    { rewrite Ec, Ed. cbn. unfold coord_eq. apply Z.eqb_neq in Ncd. rewrite Ncd. destruct (c_kind c), (c_kind d); try reflexivity; congruence. }
    rewrite E. destruct (match explicit_class (a_axis a) with Some _ => _ | None => _ end); reflexivity. }
  unfold can_map_obj. destruct (prefix (axis_class (a_axis a)) _); [now apply G|]. destruct (prefix _ _); [apply G; auto | reflexivity].
Qed.
Lemma axis_eq_same a b : In a P -> In b P -> axis_eq (a_axis a) (a_axis b) = true -> a = b.
Proof.
  intros Ha Hb E. apply Hname; auto. rewrite Forall_forall in HP. destruct (HP a Ha) as (_ & c & Ec & K & Nc & Ne & At). destruct (HP b Hb) as (_ & d & Ed & K' & Nd & Ne' & At').
  apply enc_inj. rewrite <- Nc, <- Nd. rewrite Ec, Ed in E. cbn in E. unfold coord_eq in E. destruct (Z.eqb_spec (c_name c) (c_name d)); [assumption|]. destruct (c_kind c), (c_kind d); try congruence; discriminate E.
Qed.
Lemma merge_obj_spec a out : In a P -> incl out P -> exists out', merge_obj env a out = Some out' /\ (NoDup out -> NoDup out') /\ forall b, In b out' <-> b = a \/ In b out.
Proof.
  intros Ha Hi. assert (G : merge_obj env a out = Some (if existsb (fun b => String.eqb (a_name b) (a_name a)) out then out else out ++ [a])).
  { induction out as [|o out IH]; [reflexivity|]. cbn [merge_obj existsb]. assert (Ho : In o P) by (apply Hi; now left). destruct (String.eqb_spec (a_name o) (a_name a)) as [E|E].
    - apply Hname in E; auto. subst o. rewrite can_map_self by exact Ha. reflexivity.
    - rewrite can_map_other by (auto; congruence). rewrite IH by (intros x Hx; apply Hi; now right). cbn [option_map orb]. destruct (existsb _ out); reflexivity. }
  rewrite G. eexists. split; [reflexivity|]. destruct (existsb (fun b => String.eqb (a_name b) (a_name a)) out) eqn:E.
  - split; [exact (fun H => H)|]. intros b. split; [now right|]. intros [-> |H]; [|exact H]. apply existsb_exists in E as (b & Hb & E). apply String.eqb_eq in E. apply Hname in E; auto. now subst.
  - split.
    + intros N. apply (Permutation_NoDup (Permutation_cons_append out a)). constructor; [|exact N]. intros K. assert (existsb (fun b => String.eqb (a_name b) (a_name a)) out = true); [|congruence].
      apply existsb_exists. exists a. split; [exact K | apply String.eqb_refl].
    + intros b. rewrite in_app_iff. cbn. intuition congruence.
Qed.
Lemma merge_objs_spec axes : forall out, incl axes P -> incl out P -> NoDup out -> exists out', merge_objs env axes out = Some out' /\ NoDup out' /\ forall b, In b out' <-> In b axes \/ In b out.
Proof.
  induction axes as [|a axes IH]; intros out Ha Ho N; [exists out; cbn; repeat split; auto; tauto|].
  destruct (merge_obj_spec a out ltac:(apply Ha; now left) Ho) as (o1 & E1 & N1 & I1). cbn [merge_objs]. rewrite E1. cbn [bind].
  destruct (IH o1 ltac:(intros x Hx; apply Ha; now right)) as (o2 & E2 & N2 & I2); [intros x Hx; apply I1 in Hx as [-> |Hx]; [apply Ha; now left | now apply Ho] | now apply N1|].
  exists o2. split; [exact E2|]. split; [exact N2|]. intros b. rewrite I2, I1. cbn [In]. intuition congruence.
Qed.
Context (Hid : forall a b, In a P -> In b P -> a_id a = a_id b -> a = b).
Lemma combine_spec lists : incl (List.concat lists) P -> Forall (@NoDup _) lists -> exists axes, combine_objs env lists = Some axes /\ NoDup axes /\ forall a, In a axes <-> In a (List.concat lists).
Proof.
  intros Hi HN. destruct (merge_objs_spec (List.concat lists) [] Hi ltac:(intros ? []) ltac:(constructor)) as (out & Eo & No & Io).
  assert (G : exists axes, match filter (fun A => forallb (fun outa => existsb (fun a => (a_id a =? a_id outa) || axis_eq (a_axis a) (a_axis outa)) A) out) lists with A :: _ => Some A | [] => Some out end = Some axes /\ NoDup axes /\ forall a, In a axes <-> In a (List.concat lists)).
  { destruct (filter _ lists) as [|A t] eqn:F; [exists out; split; [reflexivity|]; split; [exact No|]; intros a; rewrite Io; cbn; tauto|].
    assert (K : In A (filter (fun A => forallb (fun outa => existsb (fun a => (a_id a =? a_id outa) || axis_eq (a_axis a) (a_axis outa)) A) out) lists)) by (rewrite F; now left).
    apply filter_In in K as [K1 K2]. exists A. split; [reflexivity|]. split; [rewrite Forall_forall in HN; now apply HN|]. 
    assert (I1 : incl A (List.concat lists)) by (intros x Hx; apply in_concat; exists A; auto).
    intros a. split; [apply I1|]. intros Ha. rewrite forallb_forall in K2. assert (Ho : In a out) by (apply Io; now left). specialize (K2 a Ho). apply existsb_exists in K2 as (b & Hb & Eb).
    replace a with b; [exact Hb|]. apply orb_prop in Eb as [Eb|Eb]; [apply Z.eqb_eq in Eb; apply Hid; auto | apply axis_eq_same; auto]. }
  unfold combine_objs. rewrite Eo. cbn [bind]. destruct lists as [|A [|B t]]; [exact G | | exact G].
  exists A. split; [reflexivity|]. inversion HN as [|? ? H1 H2]; subst. split; [exact H1|]. intros a. cbn. rewrite app_nil_r. tauto.
Qed.
End Combine.

(** ** writing the data *)
Lemma index_of_elem x l k : index_of x l = Some k -> elem l k x.
Proof.
  revert k. induction l as [|y l IH]; intros k H; [discriminate|]. cbn [index_of] in H. destruct (Z.eqb_spec y x) as [->|N].
  - injection H as <-. split; [lia|reflexivity].
  - destruct (index_of x l) as [j|]; [|discriminate]. assert (Ek : k = 1 + j) by (unfold option_map in H; congruence). subst k. clear H. destruct (IH j eq_refl) as [J1 J2]. split; [lia|]. replace (Z.to_nat (1 + j)) with (S (Z.to_nat j)) by lia. exact J2.
Qed.
Lemma index_of_In x l : In x l -> exists k, index_of x l = Some k.
Proof.
  induction l as [|y l IH]; intros H; [destruct H|]. cbn [index_of]. destruct (Z.eqb_spec y x); [eauto|]. destruct H as [H|H]; [contradiction|]. destruct (IH H) as [k ->]. cbn [option_map]. eauto.
Qed.
Lemma locate_picks c : forall q p, locate c q = Some p -> picks c p q.
Proof.
  unfold locate. induction c as [|l c IH]; intros [|x q] p H; try discriminate; cbn [List.length Nat.eqb combine map sequence] in H.
  - injection H as <-. constructor.
  - specialize (IH q). destruct (Nat.eqb (List.length c) (List.length q)); [|discriminate]. destruct (index_of x l) as [k|] eqn:E; [|discriminate]. 
    destruct (sequence (map (fun '(l, x) => index_of x l) (combine c q))) as [p'|]; [|discriminate]. injection H as <-. constructor; [now apply index_of_elem | now apply IH].
Qed.
Lemma locate_In c q : In q (product c) -> exists p, locate c q = Some p.
Proof.
  intros H. apply BlockProofs.in_product in H. unfold locate. rewrite (F2_len _ _ _ H), Nat.eqb_refl. induction H as [|l x c q Hx H IH]; cbn [combine map sequence]; [eauto|].
  destruct (index_of_In x l Hx) as [k ->]. destruct IH as [p ->]. eauto.
Qed.
Section Write.
Context (env : axenv) (Henv : env_ok env) (junk : list Z -> Q) (MAX : Z) (HMAX : 1 <= MAX) (fill : Q).
Lemma write_chunks (x : var axis Q) D : responds env x D -> forall cs data, (forall c, In c cs -> Forall2 selection (var_axes x) c) ->
  exists data', fold_left (write_chunk env junk x) cs (Some data) = Some data' /\ forall q, data q = D q \/ In q (flat_map product cs) -> data' q = D q.
Proof.
  intros Hx cs. induction cs as [|c cs IH]; intros data Hc; [exists data; split; [reflexivity|]; intros q [H|[]]; exact H|].
  destruct (responds_part env Henv junk x D c Hx (Hc c (or_introl eq_refl))) as (r & Er & Sr & Vr). cbn [fold_left]. unfold write_chunk at 2. cbn [bind]. rewrite Er. cbn [bind]. rewrite Sr, zlist_eqb_refl.
  destruct (IH (store_chunk c r data) (fun c' H => Hc c' (or_intror H))) as (data' & E & V). exists data'. split; [exact E|]. intros q Hq. apply V.
  assert (L : forall p, locate c q = Some p -> store_chunk c r data q = D q).
  { intros p El. unfold store_chunk. rewrite El. apply locate_picks in El. destruct (picks_position c p q El) as [Pp ->]. now apply Vr. }
  cbn [flat_map] in Hq. destruct (locate c q) as [p|] eqn:El; [left; exact (L p eq_refl)|]. destruct Hq as [Hq|Hq]; [left; unfold store_chunk; rewrite El; exact Hq|].
  apply in_app_iff in Hq as [Hq|Hq]; [|now right]. destruct (locate_In c q Hq) as [p Ep]. congruence.
Qed.
Lemma write_data_spec (x : var axis Q) D : responds env x D -> Forall (fun a => 0 < axis_len a) (var_axes x) ->
  exists data, write_data env junk MAX fill x = Some data /\ forall q, position (var_shape x) q -> data q = D q.
Proof.
  intros Hx Hpos. set (J := map (fun a => arange 0 (axis_len a) 1) (var_axes x)).
  assert (Hne : Forall (fun l => l <> []) J).
  { unfold J. apply Forall_map. eapply Forall_impl; [|exact Hpos]. cbn. intros a Ha E. apply (f_equal (@List.length Z)) in E. rewrite length_arange in E. cbn in E. lia. }
  pose proof (loop_mem_subr MAX J [] HMAX Hne ltac:(constructor) ltac:(constructor)) as Hsub.
  destruct (loop_mem_spec MAX J [] HMAX Hne ltac:(constructor) ltac:(constructor)) as [Hperm _].
  destruct (write_chunks x D Hx (loop_mem MAX J []) (fun _ => fill)) as (data & E & V).
  - intros c Hc. specialize (Hsub c Hc). unfold J in Hsub. apply (proj1 (Forall2_map_l subr _ _ _)) in Hsub. clear -Hsub. revert Hsub. generalize (var_axes x). intros L Hsub. induction Hsub as [|a l axes c H HF IH]; constructor; auto.
    split; [now apply subr_ne in H|]. split; [apply (subr_range _ _ _ (range_arange _) H) | apply (increasing_subr _ _ (increasing_arange _) H)].
  - exists data. split; [exact E|]. intros q Hq. apply V. right. apply (Permutation_in _ (Permutation_sym Hperm)). unfold J.
    rewrite <- (map_map axis_len (fun n => arange 0 n 1)). apply in_positions. exact Hq.
Qed.
End Write.

(** ** saving *)
Lemma concat_axes {V} (vars : list (vobj V)) : List.concat (map v_axes vars) = axes_of vars.
Proof. unfold axes_of. now rewrite flat_map_concat_map. Qed.
Lemma made_dataset env (Henv : env_ok env) (junk : list Z -> Q) enc next vars : well_named vars -> objects (axes_of vars) next ->
  exists ds, make_dataset env junk enc next vars = Some ds /\ ds_vars ds = vars /\ ds_axes ds = collect [] (axes_of vars).
Proof.
  intros Hw Hob. destruct (well_named_objects vars next Hw Hob env junk enc Henv) as (ds & E & Ev). exists ds. split; [exact E|]. split; [exact Ev|].
  destruct (make_spec env Henv junk enc next vars Hob) as (ds' & E' & _ & _ & Ha & _). rewrite E in E'. injection E' as <-. now rewrite Ha, Ev.
Qed.
Lemma collected axes : (forall a b, In a axes -> In b axes -> a_id a = a_id b -> a = b) -> forall a, In a (collect [] axes) <-> In a axes.
Proof.
  intros H a. split; [intros K; now apply collect_In in K|]. intros K. destruct (collect_all [] axes a K ltac:(intros [])) as (b & Hb & E). pose proof (proj1 (collect_In _ _ _ Hb)). replace a with b; [exact Hb|]. now apply H.
Qed.
Lemma find_name (l : list axobj) a : In a l -> (forall b, In b l -> a_name b = a_name a -> b = a) -> find (fun b => String.eqb (a_name b) (a_name a)) (List.rev l) = Some a.
Proof.
  intros Ha H. destruct (find _ (List.rev l)) as [b|] eqn:E.
  - apply find_some in E as [E1 E2]. apply in_rev in E1. apply String.eqb_eq in E2. f_equal. now apply H.
  - exfalso. apply in_rev in Ha. apply (find_none _ _ E) in Ha. rewrite String.eqb_refl in Ha. discriminate.
Qed.
Lemma NoDup_names (l : list axobj) : NoDup l -> (forall a b, In a l -> In b l -> a_name a = a_name b -> a = b) -> NoDup (map a_name l).
Proof.
  induction 1 as [|a l Ha N IH]; intros H; [constructor|]. cbn. constructor.
  - intros K. apply in_map_iff in K as (b & E & Hb). apply H in E; [|now right|now left]. subst b. contradiction.
  - apply IH. intros x y Hx Hy. apply H; now right.
Qed.
Definition stored env (v : vobj Q) (nv : ncvar) : Prop :=
  nc_name nv = v_name v /\ nc_dims nv = map a_name (v_axes v) /\ forall D, responds env (var_of v) D -> forall q, position (var_shape (var_of v)) q -> nc_data nv q = D q.
Section Save.
Context (env : axenv) (Henv : env_ok env) (junk : list Z -> Q) (enc : string -> Z) (enc_inj : forall s t, enc s = enc t -> s = t) (MAX : Z) (HMAX : 1 <= MAX) (fill : Q).
Lemma axis_var_responds a : responds env (var_of (axis_var a)) (fun p => nth (Z.to_nat (hd 0 p)) (axis_vals (a_axis a)) 0%Q).
Proof.
  split; [|split; reflexivity]. intros [|i] [|j] x y Hx Hy Hne; cbn in Hx, Hy; try congruence; try (destruct i; discriminate); destruct j; discriminate.
Qed.
Lemma separate_NoDup axes : Forall (file_axis enc) axes -> separate (map a_axis axes) -> NoDup axes.
Proof.
  intros HF Hs. apply NoDup_nth_error. intros i j Hi E. destruct (Nat.eq_dec i j) as [|N]; [assumption|]. exfalso.
  destruct (nth_error axes i) as [a|] eqn:Ei; [|apply nth_error_Some in Hi; congruence]. symmetry in E.
  assert (U : unrelated (a_axis a) (a_axis a)) by (apply (Hs i j); [rewrite nth_error_map, Ei; reflexivity | rewrite nth_error_map, E; reflexivity | exact N]).
  rewrite Forall_forall in HF. destruct (HF a (nth_error_In _ _ Ei)) as (_ & c & Ec & K & _). rewrite Ec in U. cbn in U. destruct (c_kind c); congruence.
Qed.
Context (vars : list (vobj Q)) (next : Z) (Hst : storable env enc vars) (Hob : objects (axes_of vars) next).
Definition kept_vars (axes : list axobj) : list (vobj Q) := vars ++ map axis_var (filter (fun a => negb (is_dummy a)) axes).
Definition all_axes (axes : list axobj) : Prop := NoDup axes /\ forall a, In a axes <-> In a (axes_of vars).
Lemma axes_kept axes : all_axes axes -> forall a, In a (axes_of (kept_vars axes)) <-> In a (axes_of vars).
Proof.
  intros [_ H] a. unfold axes_of, kept_vars. rewrite flat_map_app, in_app_iff. split; [|now left]. intros [K|K]; [exact K|].
  apply in_flat_map in K as (v & Hv & K). apply in_map_iff in Hv as (b & <- & Hb). cbn in K. destruct K as [<-|[]]. apply filter_In in Hb. now apply H.
Qed.
Lemma kept_ok axes : all_axes axes -> well_named (kept_vars axes) /\ objects (axes_of (kept_vars axes)) next /\ forall v, In v (kept_vars axes) -> exists D, responds env (var_of v) D.
Proof.
  intros Ha. pose proof (axes_kept axes Ha) as Hk. destruct Ha as [Nd Hin]. destruct Hst as ((N1 & N2 & N3) & HF & HR & HD & HC & HX). split; [split; [|split]|split; [split|]].
  - unfold kept_vars. rewrite map_app, map_map. cbn [axis_var v_name]. apply NoDup_app_intro; [exact N1| |].
    + apply NoDup_names; [now apply NoDup_filter|]. intros a b Ka Kb. apply filter_In in Ka as [Ka _], Kb as [Kb _]. apply N3; now apply Hin.
    + intros n Kn Kn'. apply in_map_iff in Kn as (v & <- & Hv). apply in_map_iff in Kn' as (a & E & Hv'). apply filter_In in Hv' as [Hv' _]. apply (HD v a Hv (proj1 (Hin a) Hv')). now symmetry.
  - unfold kept_vars. rewrite map_app, map_map, in_app_iff. intros [K|K]; [contradiction|]. apply in_map_iff in K as (a & E & K). apply filter_In in K as [K _]. apply (HX a (proj1 (Hin a) K)). cbn in E. rewrite E. now left.
  - intros a b Ka Kb. apply N3; now apply Hk.
  - intros a b Ka Kb. apply (proj1 Hob); now apply Hk.
  - intros a Ka. apply (proj2 Hob). now apply Hk.
  - intros v Hv. apply in_app_iff in Hv as [Hv|Hv]; [now apply HR|]. apply in_map_iff in Hv as (a & <- & _). eexists. apply axis_var_responds.
Qed.
Lemma lists_ok (vs : list (vobj Q)) : (forall v, In v vs -> exists D, responds env (var_of v) D) -> (forall a, In a (axes_of vs) -> In a (axes_of vars)) -> exists axes, combine_objs env (map v_axes vs) = Some axes /\ NoDup axes /\ forall a, In a axes <-> In a (axes_of vs).
Proof.
  intros HR Hi. destruct Hst as ((N1 & N2 & N3) & HF & _). destruct (combine_spec env Henv enc enc_inj (axes_of vars) HF N3 (proj1 Hob) (map v_axes vs)) as (axes & E & N & I).
  - rewrite concat_axes. intros a Ha. now apply Hi.
  - apply Forall_map, Forall_forall. intros v Hv. destruct (HR v Hv) as (D & S & _). apply separate_NoDup; [|exact S].
    apply Forall_forall. intros a Ha. rewrite Forall_forall in HF. apply HF, Hi. apply in_flat_map. eauto.
  - exists axes. rewrite concat_axes in I. auto.
Qed.
Lemma save_spec ds : make_dataset env junk enc next vars = Some ds ->
  exists f kept dims, save env junk enc MAX fill next ds = Some f /\ all_axes kept /\ all_axes dims /\ f_dims f = map (fun a => (a_name a, axis_len (a_axis a))) dims /\ Forall2 (stored env) (kept_vars kept) (f_vars f).
Proof.
  intros Hds. pose proof Hst as ((N1 & N2 & N3) & HF & HR & HD & HC & HX). destruct (made_dataset env Henv junk enc next vars (proj1 Hst) Hob) as (ds' & E' & Ev & Ea). rewrite Hds in E'. injection E' as <-.
  destruct (lists_ok vars HR (fun a H => H)) as (axes & Ec & Nd & Hin). assert (Hall : all_axes axes) by (split; auto).
  assert (Hv : forall a, In a axes -> has_values ds a = Some (negb (is_dummy a))).
  { intros a Ha. unfold has_values, getitem. destruct (find _ (List.rev (ds_vars ds))) as [v|] eqn:Fv.
    - exfalso. apply find_some in Fv as [F1 F2]. apply in_rev in F1. rewrite Ev in F1. apply String.eqb_eq in F2. apply (HD v a F1 (proj1 (Hin a) Ha) F2).
    - rewrite Ea, find_name; [reflexivity | apply collected; [exact (proj1 Hob) | now apply Hin] |]. intros b Hb E. apply (proj1 (collected _ (proj1 Hob) b)) in Hb. apply N3; auto. now apply Hin. }
  destruct (kept_ok axes Hall) as (W2 & O2 & R2). destruct (made_dataset env Henv junk enc next (kept_vars axes) W2 O2) as (ds2 & E2 & Ev2 & Ea2).
  assert (Et : tidy_axes env junk enc next ds = Some ds2).
  { unfold tidy_axes. rewrite Ev, Ec. cbn [bind]. assert (Es : sequence (map (has_values ds) axes) = Some (map (fun a => negb (is_dummy a)) axes)).
    { clear -Hv. induction axes as [|a axes IH]; [reflexivity|]. cbn [map sequence]. rewrite (Hv a (or_introl eq_refl)), IH by (intros b Hb; apply Hv; now right). reflexivity. }
    rewrite Es. cbn [bind]. assert (Ef : map fst (filter snd (combine axes (map (fun a => negb (is_dummy a)) axes))) = filter (fun a => negb (is_dummy a)) axes).
    { clear. induction axes as [|a axes IH]; [reflexivity|]. cbn. destruct (is_dummy a); cbn; rewrite IH; reflexivity. }
    rewrite Ef. fold (kept_vars axes). rewrite (proj2 (distinct_NoDup _) (proj1 W2)). exact E2. }
  unfold save. rewrite Et. cbn [bind]. unfold write_var. rewrite Ev2.
  destruct (lists_ok (kept_vars axes) R2 (fun a H => proj1 (axes_kept axes Hall a) H)) as (dims & Ed & Ndd & Hind). rewrite Ed. cbn [bind].
  assert (Hdims : all_axes dims) by (split; [exact Ndd|]; intros a; rewrite Hind; apply axes_kept; exact Hall).
  rewrite (proj2 (distinct_NoDup _) (proj1 W2)).
  assert (Nn : NoDup (map a_name dims)) by (apply NoDup_names; [exact Ndd|]; intros a b Ha Hb; apply N3; now apply Hdims).
  assert (En0 : distinct (map fst (map (fun a => (a_name a, axis_len (a_axis a))) dims)) = true) by (rewrite map_map; apply distinct_NoDup; exact Nn). rewrite En0. cbn [andb].
  set (dl := map (fun a => (a_name a, axis_len (a_axis a))) dims).
  assert (Hdl : forall a, In a (axes_of vars) -> dim_len dl (a_name a) = Some (axis_len (a_axis a))).
  { intros a Ha. apply Hdims in Ha. unfold dim_len, dl. clear -Ha Hdims N3. destruct Hdims as [_ Hd]. assert (G : forall b, In b dims -> a_name b = a_name a -> b = a) by (intros b Hb; apply N3; now apply Hd).
    clear Hd. induction dims as [|b dims IH]; [destruct Ha|]. cbn. destruct (String.eqb_spec (a_name b) (a_name a)) as [E|E]; [rewrite (G b (or_introl eq_refl) E); reflexivity|].
    destruct Ha as [->|Ha]; [congruence|]. apply IH; [exact Ha|]. intros b' Hb'. apply G. now right. }
  destruct (sequence_map_Forall2 (write_ncvar env junk MAX fill dl) (kept_vars axes)) as (nvs & En & Hn).
  { intros v Hv'. assert (Hax : forall a, In a (v_axes v) -> In a (axes_of vars)) by (intros a Ha; apply (axes_kept axes Hall); apply in_flat_map; eauto). destruct (R2 v Hv') as (D & HRD).
    destruct (write_data_spec env Henv junk MAX HMAX fill (var_of v) D HRD) as (data & Ewd & _).
    { cbn. apply Forall_map, Forall_forall. intros a Ha. rewrite Forall_forall in HF. destruct (HF a (Hax a Ha)) as (_ & c & Ecc & _ & _ & Ne & _). rewrite Ecc. cbn. destruct (c_vals c); [congruence|]. unfold zlen. cbn. lia. }
    unfold write_ncvar. rewrite Ewd. replace (forallb _ (v_axes v)) with true; [eexists; reflexivity|]. symmetry. apply forallb_forall. intros a Ha. rewrite (Hdl a (Hax a Ha)). apply Z.eqb_refl. }
  rewrite En. cbn [option_map]. eexists. exists axes, dims. split; [reflexivity|]. split; [exact Hall|]. split; [exact Hdims|]. split; [reflexivity|]. cbn [f_vars].
  apply Forall2_intro_nth; [exact (F2_len _ _ _ Hn)|]. intros i v nv Hiv Hin'. pose proof (Forall2_nth_error _ _ _ i v nv Hn Hiv Hin') as Hw. apply nth_error_In in Hiv.
  unfold write_ncvar in Hw. destruct (forallb _ (v_axes v)); [|discriminate]. destruct (write_data env junk MAX fill (var_of v)) as [data|] eqn:Ewd; [|discriminate]. cbn [option_map] in Hw. injection Hw as <-.
  split; [reflexivity|]. split; [reflexivity|]. intros D HRD q Hq. cbn [nc_data].
  destruct (write_data_spec env Henv junk MAX HMAX fill (var_of v) D HRD) as (data' & Ewd' & V).
  { cbn. apply Forall_map, Forall_forall. intros a Ha. rewrite Forall_forall in HF. destruct (HF a) as (_ & c & Ecc & _ & _ & Ne & _); [apply (axes_kept axes Hall); apply in_flat_map; eauto|]. rewrite Ecc. cbn. destruct (c_vals c); [congruence|]. unfold zlen. cbn. lia. }
  rewrite Ewd in Ewd'. injection Ewd' as <-. now apply V.
Qed.
End Save.
