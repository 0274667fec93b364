(** C54: ensembles of variables. *)
From Coq Require Import ZArith List Bool Lia ZifyBool QArith_base.
From Verif Require Import SortSpec IndexModel IndexSpec IndexProofs ArrModel ArrProofs ViewModel ViewSpec ViewProofs AxisModel AxisSpec AxisProofs VarOpsModel VarOpsSpec VarOpsProofs NumModel ReduceModel ReduceSpec
  StencilModel StencilSpec StencilProofs RespondProofs LagProofs ConcatModel ConcatSpec ConcatProofs ConcatAxis ConcatVar EnsembleModel EnvExample ViewProps ReduceProps UfuncProps StencilProps WindowProps.
Import ListNotations.
Open Scope Z_scope.
Notation zlen := IndexSpec.zlen.
Notation znth := ArrModel.znth.

(** [B] are the axes of a member and [A] those of the first member: equal one by one, and axes at different places belong to different dimensions *)
Definition fellow (A B : list axis) : Prop :=
  length B = length A /\
  (forall j a b, nth_error A j = Some a -> nth_error B j = Some b -> axis_same b a = true) /\
  (forall j k a b, j <> k -> nth_error A j = Some a -> nth_error B k = Some b -> unrelated b a).

Lemma fellow_in_place A B : fellow A B -> in_place B A.
Proof.
  intros (H1 & H2 & H3). split; [symmetry; exact H1|]. intros j k b a Hb Ha. destruct (Nat.eqb_spec j k) as [->|Hne]; [exact (H2 k a b Ha Hb)|].
  apply unrelated_same. apply (H3 k j a b); auto.
Qed.
Lemma fellow_same A B : fellow A B -> same_axes B A = true.
Proof.
  intros (H1 & H2 & _). unfold same_axes. rewrite H1, Nat.eqb_refl. cbn [andb]. apply forallb_forall. intros [b a] Hin. apply In_nth_error in Hin as (n & Hn).
  rewrite nth_error_combine in Hn. destruct (nth_error B n) as [b'|] eqn:Eb; [|discriminate]. destruct (nth_error A n) as [a'|] eqn:Ea; [|discriminate]. injection Hn as <- <-. exact (H2 n a' b' Ea Eb).
Qed.
Lemma fellow_selection A B L : fellow A B -> Forall2 selection A L -> Forall2 selection B L.
Proof.
  intros (H1 & H2 & _) HL. pose proof (Forall2_len _ _ _ HL) as E. apply Forall2_intro_nth; [congruence|]. intros j b l Hb Hl.
  destruct (nth_error A j) as [a|] eqn:Ea; [|apply nth_error_None in Ea; assert (j < length B)%nat by (apply nth_error_Some; congruence); lia].
  destruct (Forall2_nth_error _ _ _ _ _ _ HL Ea Hl) as (S1 & S2 & S3). split; [exact S1|]. split; [|exact S3]. rewrite (same_len b a (H2 j a b Ea Hb)). exact S2.
Qed.

Lemma stack_ok {V} (l : list (arr V)) s : l <> [] -> Forall (fun a => shape a = s) l -> exists r, np_stack l = Some r /\ shape r = zlen l :: s /\
  forall k a q, nth_error l k = Some a -> val r (Z.of_nat k :: q) = val a q.
Proof.
  intros Hne HF. destruct l as [|a0 l]; [contradiction|]. unfold np_stack.
  assert (forallb (fun b => if list_eq_dec Z.eq_dec (shape b) (shape a0) then true else false) (a0 :: l) = true) as ->.
  { apply forallb_forall. intros b Hb. destruct (list_eq_dec Z.eq_dec (shape b) (shape a0)) as [|n]; [reflexivity|]. exfalso. apply n.
    rewrite (proj1 (Forall_forall _ _) HF b Hb). symmetry. exact (Forall_inv HF). }
  eexists. split; [reflexivity|]. cbn [shape]. split; [rewrite (Forall_inv HF); reflexivity|]. intros k a q Hk. cbn [val hd tl]. rewrite Nat2Z.id. erewrite nth_error_nth; [reflexivity|exact Hk].
Qed.

(** The members of an ensemble, one after the other along the new first axis. *)
Theorem C54_ensemble : forall V env junk ens_class ens_name (x0 : var axis V) rest datas, let vars := x0 :: rest in let new := ens_axis env ens_class ens_name (length vars) in
  Forall2 (responds env) vars datas -> Forall (fun x => fellow (var_axes x0) (var_axes x)) vars ->
  (forall a, In a (var_axes x0) -> unrelated new a /\ unrelated a new) ->
  exists y D, ensemble_var env junk ens_class ens_name vars = Some y /\ var_axes y = new :: var_axes x0 /\ responds env y D /\
    forall k E q, nth_error datas k = Some E -> D (Z.of_nat k :: q) = E q.
Proof.
  intros V env junk cls nm x0 rest datas vars new Hx Hf Hnew.
  set (D := fun p => match nth_error datas (Z.to_nat (hd 0 p)) with Some E => E (tl p) | None => junk p end).
  eexists. exists D. split; [reflexivity|]. split; [reflexivity|]. split.
  2:{ intros k E q Hk. unfold D. cbn [hd tl]. rewrite Nat2Z.id, Hk. reflexivity. }
  assert (separate (var_axes x0)) as Hsep by (subst vars; inversion Hx as [|? ? ? ? Hx0 _]; exact (proj1 Hx0)).
  split. { change (separate (insert_at (var_axes x0) 0 new)). apply separate_insert; [exact Hsep|lia|exact Hnew]. }
  cbn [var_source var_axes]. intros inds Hi. inversion Hi as [|a0 l0 ? L Hl0 HL]; subst. destruct Hl0 as (N0 & R0 & I0).
  unfold ensemble_view. cbn [vinds view_of_inds hd_error bind]. change (remove_first _) with (view_of_inds (var_axes x0) L).
  assert (axis_len new = Z.of_nat (length vars)) as Elen. { unfold new, ens_axis, axis_len. cbn [c_vals]. unfold indices_q. unfold IndexSpec.zlen. rewrite map_length, seq_length. reflexivity. }
  assert (forall l, in_range (axis_len new) l -> exists chunks, sequence (map (fun i => bind (nth_error vars (Z.to_nat i)) (fun x => ViewModel.get (axis_ops env) junk (view_of_inds (var_axes x0) L) x true true)) l) = Some chunks /\
    Forall2 (fun i r => exists E, nth_error datas (Z.to_nat i) = Some E /\ array_is r (map zlen L) (fun p => E (gather L p))) l chunks) as Hch.
  { induction l as [|i l IH]; intros Hr; [exists []; split; [reflexivity|constructor]|]. inversion Hr as [|? ? Hi0 Hr']; subst. destruct (IH Hr') as (chunks & Ec & HF).
    destruct (nth_error vars (Z.to_nat i)) as [x|] eqn:Ex; [|apply nth_error_None in Ex; lia].
    destruct (nth_error datas (Z.to_nat i)) as [E|] eqn:EE; [|apply nth_error_None in EE; pose proof (Forall2_len _ _ _ Hx); lia].
    pose proof (Forall2_nth_error _ _ _ _ _ _ Hx Ex EE) as Hxe. pose proof (proj1 (Forall_forall _ _) Hf x (nth_error_In _ _ Ex)) as Hfx.
    destruct (get_in_place env junk (var_axes x0) L x E true Hxe (fellow_selection _ _ _ Hfx HL) (fellow_in_place _ _ Hfx)) as (r & Er & Hr0).
    exists (r :: chunks). cbn [map sequence]. rewrite Ex. cbn [bind]. rewrite Er, Ec. split; [reflexivity|]. constructor; [exists E; auto|exact HF]. }
  destruct (Hch l0 R0) as (chunks & -> & HF). cbn [bind]. pose proof (Forall2_len _ _ _ HF) as Hlen.
  destruct (stack_ok chunks (map zlen L)) as (r & Er & Es & Ev).
  - intros ->. destruct l0; [contradiction|discriminate].
  - apply Forall_forall. intros c Hc. apply In_nth_error in Hc as (k & Hk). destruct (nth_error l0 k) as [i|] eqn:Ei; [|apply nth_error_None in Ei; assert (k < length chunks)%nat by (apply nth_error_Some; congruence); lia].
    destruct (Forall2_nth_error _ _ _ _ _ _ HF Ei Hk) as (E & _ & H & _). exact H.
  - exists r. split; [exact Er|]. split; [rewrite Es; cbn [map]; f_equal; unfold zlen; lia|].
    intros p Hp. inversion Hp as [|n k s q Hk Hq]; subst. destruct (nth_error chunks (Z.to_nat k)) as [c|] eqn:Ec; [|apply nth_error_None in Ec; unfold zlen in Hk; lia].
    destruct (nth_error l0 (Z.to_nat k)) as [i|] eqn:Ei; [|apply nth_error_None in Ei; unfold zlen in Hk; lia].
    destruct (Forall2_nth_error _ _ _ _ _ _ HF Ei Ec) as (E & HE & _ & Hv). replace k with (Z.of_nat (Z.to_nat k)) at 1 by lia. rewrite (Ev _ _ q Ec), (Hv q Hq). unfold D. cbn [gather hd tl].
    assert (znth l0 k = i) as -> by (apply znth_elem; split; [lia|exact Ei]). rewrite HE. reflexivity.
Qed.
Print Assumptions C54_ensemble.

Lemma Forall2_impl' {A B} (P Q : A -> B -> Prop) l r : (forall a b, P a b -> Q a b) -> Forall2 P l r -> Forall2 Q l r.
Proof. intros H. induction 1; constructor; auto. Qed.

(** Datasets: every variable of the first one, matched by name with those of the others.  [ds] are dictionaries, so the names in each are different. *)
Definition same_names {V} (a b : list (Z * var axis V)) : Prop := forall n, In n (map fst a) <-> In n (map fst b).
Definition equal_axes (B A : list axis) : Prop := length B = length A /\ forall j b a, nth_error B j = Some b -> nth_error A j = Some a -> axis_same b a = true.

Lemma same_axes_iff B A : same_axes B A = true <-> equal_axes B A.
Proof.
  unfold same_axes, equal_axes. split.
  - intros H. apply andb_prop in H as [H1 H2]. apply Nat.eqb_eq in H1. split; [exact H1|]. intros j b a Hb Ha. rewrite forallb_forall in H2. apply (H2 (b, a)).
    apply (nth_error_In _ j). rewrite nth_error_combine, Hb, Ha. reflexivity.
  - intros [H1 H2]. rewrite H1, Nat.eqb_refl. cbn [andb]. apply forallb_forall. intros [b a] Hin. apply In_nth_error in Hin as (n & Hn).
    rewrite nth_error_combine in Hn. destruct (nth_error B n) as [b'|] eqn:Eb; [|discriminate]. destruct (nth_error A n) as [a'|] eqn:Ea; [|discriminate]. injection Hn as <- <-. exact (H2 n b' a' Eb Ea).
Qed.
Lemma has_names_iff {V} (a b : list (Z * var axis V)) : has_names a b = true <-> forall n, In n (map fst a) -> In n (map fst b).
Proof.
  unfold has_names. rewrite forallb_forall. split.
  - intros H n Hn. apply in_map_iff in Hn as ([m x] & <- & Hin). specialize (H _ Hin). apply existsb_exists in H as ([k z] & Hk & E). apply Z.eqb_eq in E. cbn in *. subst. apply in_map_iff. exists (m, z). auto.
  - intros H [n x] Hin. specialize (H n (in_map fst _ _ Hin)). apply in_map_iff in H as ([m z] & E & Hz). cbn in E. subst. apply existsb_exists. exists (n, z). split; [exact Hz|apply Z.eqb_refl].
Qed.
Lemma lookup_var_In {V} n (d : list (Z * var axis V)) x : lookup_var n d = Some x -> In (n, x) d.
Proof. unfold lookup_var. destruct (find _ d) as [[m z]|] eqn:E; [|discriminate]. intros H. injection H as <-. apply find_some in E as [H E]. apply Z.eqb_eq in E. subst. exact H. Qed.
Lemma lookup_var_some {V} n (d : list (Z * var axis V)) : In n (map fst d) -> exists x, lookup_var n d = Some x.
Proof.
  intros H. apply in_map_iff in H as ([m z] & E & Hz). cbn in E. subst. unfold lookup_var. destruct (find _ d) as [[k y]|] eqn:E; [eexists; reflexivity|].
  exfalso. apply (find_none _ _ E) in Hz. rewrite Z.eqb_refl in Hz. discriminate.
Qed.
Lemma lookup_var_is {V} n (d : list (Z * var axis V)) x : NoDup (map fst d) -> In (n, x) d -> lookup_var n d = Some x.
Proof.
  unfold lookup_var. induction d as [|[m z] d IH]; intros HN H; [contradiction|]. cbn [map fst] in HN. apply NoDup_cons_iff in HN as [HN1 HN2]. cbn [find]. destruct (Z.eqb_spec m n) as [->|Hne].
  - destruct H as [E|H]; [injection E as ->; reflexivity|]. exfalso. apply HN1. apply (in_map fst) in H. exact H.
  - destruct H as [E|H]; [congruence|]. apply IH; auto.
Qed.
Lemma sequence_Forall2 {A B} (f : A -> option B) l r : sequence (map f l) = Some r <-> Forall2 (fun a b => f a = Some b) l r.
Proof.
  revert r. induction l as [|a l IH]; intros r; cbn [map sequence].
  - split; [intros H; injection H as <-; constructor|intros H; inversion H; reflexivity].
  - destruct (f a) as [b|] eqn:E.
    + destruct (sequence (map f l)) as [t|] eqn:Et.
      * split; [intros H; injection H as <-; constructor; [exact E|apply IH; reflexivity]|]. intros H. inversion H as [|? b' ? t' H1 H2]; subst. rewrite E in H1. injection H1 as <-. apply IH in H2. injection H2 as <-. reflexivity.
      * split; [discriminate|]. intros H. inversion H as [|? b' ? t' H1 H2]; subst. apply IH in H2. discriminate.
    + split; [discriminate|]. intros H. inversion H as [|? b' ? t' H1 H2]; subst. congruence.
Qed.

(** Which sets of datasets are accepted, and what is made of them: every dataset has to hold the same names, the variables of one name have to have equal axes, and each becomes the ensemble of the variables of its name, in the order of the datasets. *)
Theorem C54_datasets : forall V env junk ens_class ens_name (d0 : list (Z * var axis V)) rest r, let ds := d0 :: rest in
  Forall (fun d => NoDup (map fst d)) ds ->
  (ensemble env junk ens_class ens_name ds = Some r <->
   Forall (fun d => same_names d d0) ds /\
   Forall2 (fun '(n, x0) '(m, y) => m = n /\ exists vars, Forall2 (fun d x => In (n, x) d) ds vars /\ Forall (fun x => equal_axes (var_axes x) (var_axes x0)) vars /\
     ensemble_var env junk ens_class ens_name vars = Some y) d0 r).
Proof.
  intros V env junk cls nm d0 rest r ds HN. unfold ensemble. cbn [ds hd_error bind]. fold ds.
  assert (forallb (fun d => has_names d d0 && has_names d0 d) ds = true <-> Forall (fun d => same_names d d0) ds) as Hnames.
  { rewrite forallb_forall, Forall_forall. split; intros H d Hd; specialize (H d Hd).
    - apply andb_prop in H as [H1 H2]. rewrite has_names_iff in H1. rewrite has_names_iff in H2. intros n. split; auto.
    - apply andb_true_intro. rewrite !has_names_iff. split; intros n Hn; apply H; exact Hn. }
  destruct (forallb (fun d => has_names d d0 && has_names d0 d) ds) eqn:Eb.
  2:{ cbn [negb]. split; [discriminate|]. intros [H _]. apply Hnames in H. discriminate. }
  cbn [negb]. unfold dataset in *. match goal with |- context [sequence (map ?f d0)] => pose proof (sequence_Forall2 f d0 r) as Hs end. rewrite Hs. clear Hs. split.
  - intros H. split; [apply Hnames; reflexivity|]. revert H. apply Forall2_impl'. intros [n x0] [m y] H. cbv beta iota in H.
    match type of H with bind ?e _ = _ => destruct e as [vars|] eqn:Ev end; cbn [bind] in H; [|discriminate]. destruct (forallb _ vars) eqn:Ea; cbn [negb] in H; [|discriminate].
    destruct (ensemble_var env junk cls nm vars) as [y'|] eqn:Ey; cbn [option_map] in H; [|discriminate]. injection H as <- <-. split; [reflexivity|]. exists vars. split; [|split; [|exact Ey]].
    + apply sequence_Forall2 in Ev. revert Ev. apply Forall2_impl'. intros d x. apply lookup_var_In.
    + rewrite forallb_forall in Ea. apply Forall_forall. intros x Hx. apply same_axes_iff. exact (Ea x Hx).
  - intros [_ H]. revert H. apply Forall2_impl'. intros [n x0] [m y] (-> & vars & H1 & H2 & H3).
    assert (sequence (map (lookup_var n) ds) = Some vars) as Eq.
    { apply sequence_Forall2. clear - H1 HN. induction H1 as [|d x ds' vars H H1 IH]; constructor; [apply lookup_var_is; [exact (Forall_inv HN)|exact H]|apply IH; exact (Forall_inv_tail HN)]. }
    unfold dataset in *. match goal with |- bind ?e _ = _ => replace e with (Some vars) by (symmetry; exact Eq) end. cbn [bind]. assert (forallb (fun x => same_axes (var_axes x) (var_axes x0)) vars = true) as ->.
    { apply forallb_forall. intros x Hx. apply same_axes_iff. exact (proj1 (Forall_forall _ _) H2 x Hx). }
    cbn [negb]. rewrite H3. reflexivity.
Qed.
Print Assumptions C54_datasets.

(** Two fields on the same grid and their ensemble; a third one on other longitudes. *)
Definition ens_cls : class := [77].
Definition doubled (q : list Z) : num := NumModel.add (obs q) (obs q).
Definition warm : var axis num := source [lat2; lon3] doubled.
Definition narrow : var axis num := source [lat2; lon2] obs.
Definition ens (l : list (var axis num)) : option (var axis num) := ensemble_var env0 zs ens_cls 7 l.
Example C54_example : Forall2 (responds env0) [field; warm] [obs; doubled] /\ Forall (fun x => fellow (var_axes field) (var_axes x)) [field; warm] /\
  (forall a, In a (var_axes field) -> unrelated (ens_axis env0 ens_cls 7 2) a /\ unrelated a (ens_axis env0 ens_cls 7 2)) /\
  show (ens [field; warm]) [[0; 1]; [1]; [0; 2]] [[0; 0; 0]; [0; 0; 1]; [1; 0; 0]; [1; 0; 1]] = Some ([2; 1; 2], map (fun p => number p) [obs [1; 0]; obs [1; 2]; doubled [1; 0]; doubled [1; 2]]) /\
  option_map (map fst) (ensemble env0 zs ens_cls 7 [[(1, field); (2, narrow)]; [(2, narrow); (1, warm)]]) = Some [1; 2] /\
  ensemble env0 zs ens_cls 7 [[(1, field)]; [(1, narrow)]] = None /\ ensemble env0 zs ens_cls 7 [[(1, field)]; [(2, warm)]] = None /\
  ensemble env0 zs ens_cls 7 [[(1, field)]; [(1, warm); (2, narrow)]] = None.
Proof.
  assert (fellow [lat2; lon3] [lat2; lon3]) as Hf.
  { split; [reflexivity|]. split.
    - intros [|[|j]] a b Ha Hb; cbn in Ha, Hb; try (destruct j; discriminate); injection Ha as <-; injection Hb as <-; vm_compute; reflexivity.
    - intros j k a b Hne Ha Hb. destruct j as [|[|j]], k as [|[|k]]; cbn in Ha, Hb; try congruence; try (destruct j; discriminate); try (destruct k; discriminate); injection Ha as <-; injection Hb as <-; vm_compute; repeat split; congruence. }
  split; [constructor; [exact field_responds|constructor; [apply source_responds; exact (proj1 field_responds)|constructor]]|].
  split; [constructor; [exact Hf|constructor; [exact Hf|constructor]]|].
  split; [intros a [<-|[<-|[]]]; vm_compute; repeat split; congruence|].
  split; [vm_compute; reflexivity|]. repeat split; vm_compute; reflexivity.
Qed.
