(** Proofs about reading a variable at neighbouring points along one axis (StencilModel). *)
From Coq Require Import ZArith List Bool Lia Permutation.
From Verif Require Import SortSpec IndexModel IndexSpec IndexProofs ArrModel ArrProofs ViewModel ViewSpec ViewProofs ChunkProofs
     AxisModel AxisSpec AxisProofs VarOpsModel VarOpsSpec VarOpsProofs ReduceModel ReduceSpec LoopProofs RespondProofs UfuncModel UfuncView StencilModel.
Import ListNotations.
Open Scope Z_scope.

(** *** replacing one coordinate *)
Lemma set_at_set {A} (l : list A) d x y : set_at (set_at l d x) d y = set_at l d y.
Proof. revert d; induction l as [|a l IH]; intros [|d]; cbn; auto. now rewrite IH. Qed.
Lemma nth_set_same {A} (l : list A) d x z : (d < length l)%nat -> nth d (set_at l d x) z = x.
Proof. intros H. rewrite nth_set_at by exact H. now rewrite Nat.eqb_refl. Qed.
Lemma set_at_nth {A} (l : list A) d x : nth_error l d = Some x -> set_at l d x = l.
Proof. revert d; induction l as [|a l IH]; intros [|d] H; cbn in *; try discriminate; [now injection H as ->|now rewrite IH]. Qed.
Lemma map_set_at {A B} (f : A -> B) l d x : map f (set_at l d x) = set_at (map f l) d (f x).
Proof. revert d; induction l as [|a l IH]; intros [|d]; cbn; auto. now rewrite IH. Qed.
Lemma gather_set L d l p : gather (set_at L d l) p = set_at (gather L p) d (znth l (nth d p 0)).
Proof.
  revert d p; induction L as [|a L IH]; intros d p; [reflexivity|]. destruct p as [|x p]; [now destruct d|].
  destruct d as [|d]; cbn; [reflexivity|]. now rewrite IH.
Qed.
Lemma nth_gather' L p d l : length p = length L -> nth_error L d = Some l -> nth d (gather L p) 0 = znth l (nth d p 0).
Proof.
  revert p d; induction L as [|a L IH]; intros p d Hl H; [destruct d; discriminate|]. destruct p as [|x p]; [discriminate|].
  destruct d as [|d]; cbn in *; [now injection H as ->|]. now apply IH; [injection Hl|].
Qed.
Lemma gather_set_p L d p i : gather L (set_at p d i) = set_at (gather L p) d (znth (nth d L []) i).
Proof.
  revert d p; induction L as [|a L IH]; intros d p; [now destruct (set_at p d i)|]. destruct p as [|x p]; [now destruct d|].
  destruct d as [|d]; cbn; [reflexivity|]. now rewrite IH.
Qed.
Lemma position_set s p d n i : position s p -> nth_error s d = Some n -> 0 <= i < n -> position s (set_at p d i).
Proof.
  intros H. revert d. induction H as [|m x s p Hx Hp IH]; intros [|d] E Hi; cbn in *; try discriminate; constructor; auto; [|now apply IH]. injection E as ->. exact Hi.
Qed.
Lemma position_set_shape s p d n m : position (set_at s d m) p -> nth_error s d = Some n -> forall i, 0 <= i < n -> position s (set_at p d i).
Proof.
  revert p d. induction s as [|k s IH]; intros p [|d] H E i Hi; cbn in *; try discriminate; inversion H as [|? x ? p' Hx Hp]; subst; cbn; constructor; auto.
  - injection E as ->. exact Hi.
  - eapply IH; eassumption.
Qed.
Lemma position_at s p d n : position s p -> nth_error s d = Some n -> 0 <= nth d p 0 < n.
Proof. intros H E. eapply position_nth; eassumption. Qed.
Lemma Forall2_set {A B} (R : A -> B -> Prop) l l' d b : Forall2 R l l' -> (forall a, nth_error l d = Some a -> R a b) -> Forall2 R l (set_at l' d b).
Proof.
  intros H. revert d. induction H as [|x y l l' Hxy Hl IH]; intros [|d] K; cbn; constructor; auto. 
Qed.
Lemma Forall2_set_both {A B} (R : A -> B -> Prop) l l' d a b : Forall2 R l l' -> R a b -> Forall2 R (set_at l d a) (set_at l' d b).
Proof. intros H. revert d. induction H as [|x y l l' Hxy Hl IH]; intros [|d] K; cbn; constructor; auto. Qed.

(** *** arrays to be broadcast to a shape *)
Definition squash (s p : list Z) : list Z := map (fun '(m, x) => if m =? 1 then 0 else x) (combine s p).
Definition shows {V} (s : list Z) (r : arr V) (E : list Z -> V) : Prop :=
  fits (shape r) s /\ forall p, position s p -> val r (squash (shape r) p) = E p.

Lemma fits_refl s : fits s s.
Proof. induction s; constructor; auto. Qed.
Lemma squash_own s p : position s p -> squash s p = p.
Proof. intros H. induction H as [|n x s p Hx Hp IH]; [reflexivity|]. cbn. unfold squash in IH. rewrite IH. destruct (Z.eqb_spec n 1); [f_equal; lia|reflexivity]. Qed.
Lemma shows_array {V} s (r : arr V) E : array_is r s E -> shows s r E.
Proof. intros [Hs Hv]. split; [rewrite Hs; apply fits_refl|]. intros p Hp. rewrite Hs, squash_own by exact Hp. now apply Hv. Qed.
Lemma array_shows {V} s (r : arr V) E : shows s r E -> shape r = s -> array_is r s E.
Proof. intros [Hf Hv] Hs. split; [exact Hs|]. intros p Hp. rewrite <- Hv by exact Hp. now rewrite Hs, squash_own. Qed.
Lemma shows_ext {V} s (r : arr V) E F : shows s r E -> (forall p, position s p -> E p = F p) -> shows s r F.
Proof. intros [H1 H2] H. split; [exact H1|]. intros p Hp. rewrite H2 by exact Hp. now apply H. Qed.
Lemma fits_antisym s t : fits s t -> fits t s -> s = t.
Proof. intros H. induction H as [|m n s t Hmn Hst IH]; intros K; inversion K; subst; [reflexivity|]. f_equal; [lia|auto]. Qed.
Lemma squash_squash s w u : fits s w -> forall p, length p = length w -> fits w u -> squash s (squash w p) = squash s p.
Proof.
  intros H. revert u. induction H as [|m n s w Hmn Hsw IH]; intros u p Hl K; [reflexivity|]. destruct p as [|x p]; [reflexivity|]. inversion K; subst. cbn. f_equal.
  - destruct (Z.eqb_spec m 1); [reflexivity|]. destruct (Z.eqb_spec n 1); [lia|reflexivity].
  - eapply IH; [cbn in Hl; lia|eassumption].
Qed.

Lemma op2_shows {V} (f : V -> V -> V) s a b E F : shows s a E -> shows s b F ->
  exists c, op2 f a b = Some c /\ shows s c (fun p => f (E p) (F p)) /\ (shape a = s \/ shape b = s -> shape c = s).
Proof.
  intros [Ha Ea] [Hb Eb]. destruct (bcast_fits _ _ _ Ha Hb) as (w & Hw & Hws & Haw & Hbw). unfold op2. rewrite Hw.
  destruct (broadcast_fits a w Haw) as (a' & -> & _ & Va). destruct (broadcast_fits b w Hbw) as (b' & -> & _ & Vb).
  eexists. split; [reflexivity|]. split.
  - split; [exact Hws|]. cbn [shape val]. intros p Hp. rewrite Va, Vb. change (f (val a (squash (shape a) (squash w p))) (val b (squash (shape b) (squash w p))) = f (E p) (F p)).
    assert (length p = length w) as Hlen by (rewrite (Forall2_len _ _ _ Hws); symmetry; apply (Forall2_len _ _ _ Hp)).
    rewrite (squash_squash (shape a) w s), (squash_squash (shape b) w s) by assumption. rewrite Ea, Eb by exact Hp. reflexivity.
  - cbn [shape]. intros [K|K]; [rewrite K in Haw; apply fits_antisym; assumption|rewrite K in Hbw; apply fits_antisym; assumption].
Qed.
Lemma op1_shows {V} (f : V -> V) s a E : shows s a E -> shows s (op1 f a) (fun p => f (E p)).
Proof. intros [Ha Ea]. split; [exact Ha|]. intros p Hp. cbn [shape val op1]. f_equal. exact (Ea p Hp). Qed.

Lemma fits_position t s p : fits t s -> Forall (fun n => 0 < n) s -> position t p -> position s p.
Proof.
  intros H. revert p. induction H as [|m n t s Hmn Hs IH]; intros p Hpos Hp; inversion Hp as [|? x ? p' Hx Hp']; subst; [constructor|].
  inversion Hpos; subst. constructor; [lia|now apply IH].
Qed.
(** the array has the axis [d] of the shape *)
Definition along {V} (s : list Z) (d : nat) (r : arr V) : Prop := nth_error (shape r) d = nth_error s d.
Lemma fits_set s t d n : fits s t -> fits (set_at s d n) (set_at t d n).
Proof. intros H. apply Forall2_set_both; [exact H|now left]. Qed.
Lemma op2_along {V} (f : V -> V -> V) s d a b c E F : shows s a E -> shows s b F -> op2 f a b = Some c -> along s d a \/ along s d b -> along s d c.
Proof.
  intros [Ha _] [Hb _] H Hd. destruct (bcast_fits _ _ _ Ha Hb) as (w & Hw & Hws & Haw & Hbw). unfold op2 in H. rewrite Hw in H.
  destruct (broadcast_fits a w Haw) as (a' & Ea & _ & Va). destruct (broadcast_fits b w Hbw) as (b' & Eb & _ & Vb). rewrite Ea, Eb in H. injection H as <-.
  unfold along in *. cbn [shape].
  assert (forall t, fits t w -> nth_error t d = nth_error s d -> nth_error w d = nth_error s d) as K; [|destruct Hd as [Hd|Hd]; eauto].
  intros t Ht E'. destruct (nth_error w d) as [n|] eqn:En.
  - destruct (nth_error s d) as [m|] eqn:Em.
    + pose proof (Forall2_nth_error _ _ _ _ _ _ Ht E' En). pose proof (Forall2_nth_error _ _ _ _ _ _ Hws En Em). f_equal. cbv beta in *. lia.
    + apply nth_error_None in Em. rewrite <- (Forall2_len _ _ _ Hws) in Em. assert (d < length w)%nat by (apply nth_error_Some; congruence). lia.
  - apply nth_error_None in En. rewrite (Forall2_len _ _ _ Hws) in En. apply nth_error_None in En. congruence.
Qed.
Lemma squash_take sh s p d n idx : fits sh s -> nth_error sh d = Some n -> in_range n idx ->
  position (set_at s d (zlen idx)) p ->
  set_at (squash (set_at sh d (zlen idx)) p) d (znth idx (nth d (squash (set_at sh d (zlen idx)) p) 0)) = squash sh (set_at p d (znth idx (nth d p 0))).
Proof.
  intros H. revert d p. induction H as [|m k sh s Hmk Hs IH]; intros [|d] p E Hr Hp; cbn in E; try discriminate.
  - injection E as ->. cbn in Hp. inversion Hp as [|? x ? p' Hx Hp']; subst. cbn. f_equal.
    assert ((if zlen idx =? 1 then 0 else x) = x) as -> by (destruct (Z.eqb_spec (zlen idx) 1); [lia|reflexivity]).
    destruct (Z.eqb_spec n 1) as [->|]; [|reflexivity]. pose proof (in_range_elem _ _ _ _ Hr (elem_znth _ _ Hx)). lia.
  - cbn in Hp. inversion Hp as [|? x ? p' Hx Hp']; subst. cbn. f_equal. unfold squash in IH. now apply IH.
Qed.
Lemma take_shows {V} s d n (r : arr V) E idx : shows s r E -> along s d r -> nth_error s d = Some n -> in_range n idx ->
  shows (set_at s d (zlen idx)) (take_axis r d idx) (fun p => E (set_at p d (znth idx (nth d p 0)))) /\
  along (set_at s d (zlen idx)) d (take_axis r d idx).
Proof.
  intros [Hf Hv] Hd Hn Hr. unfold along in *. split; [split|].
  - cbn. now apply fits_set.
  - intros p Hp. cbn [shape val take_axis]. rewrite (squash_take (shape r) s p d n idx Hf); [|congruence|exact Hr|exact Hp].
    assert (d < length s)%nat as Hl by (apply nth_error_Some; congruence).
    apply Hv. apply (position_set_shape s p d n (zlen idx)); [exact Hp|exact Hn|]. eapply in_range_elem; [exact Hr|]. apply elem_znth.
    eapply position_at; [exact Hp|]. rewrite nth_error_set_at by exact Hl. now rewrite Nat.eqb_refl.
  - cbn [shape take_axis]. assert (d < length s)%nat as Hl by (apply nth_error_Some; congruence). assert (d < length (shape r))%nat as Hl' by (apply nth_error_Some; congruence).
    now rewrite !nth_error_set_at, !Nat.eqb_refl by assumption.
Qed.

(** *** sorted unions of points *)
Lemma union1d_In a b x : In x (union1d a b) <-> In x a \/ In x b.
Proof. unfold union1d. rewrite unique_In. apply in_app_iff. Qed.
Lemma union1d_sorted a b : sorted (union1d a b).
Proof. apply unique_sorted. Qed.
Lemma selection_of_sorted a l : sorted l -> l <> [] -> in_range (axis_len a) l -> selection a l.
Proof. intros H1 H2 H3. split; [exact H2|]. split; [exact H3|]. now apply sorted_increasing. Qed.
Lemma in_range_incl n l l' : in_range n l -> (forall x, In x l' -> In x l) -> in_range n l'.
Proof. unfold in_range. rewrite !Forall_forall. auto. Qed.
Lemma zlen_map {A B} (f : A -> B) l : zlen (map f l) = zlen l.
Proof. unfold zlen. now rewrite map_length. Qed.
Lemma znth_map f l k : 0 <= k < zlen l -> znth (map f l) k = f (znth l k).
Proof. intros H. apply znth_elem. apply elem_map. exists (znth l k). split; [now apply elem_znth|reflexivity]. Qed.
Lemma searchsorted_range u l : sorted u -> (forall x, In x l -> In x u) -> in_range (zlen u) (map (searchsorted u) l).
Proof. intros Hs Hi. apply Forall_forall. intros k Hk. apply in_map_iff in Hk as (x & <- & Hx). pose proof (searchsorted_elem u x Hs (Hi x Hx)) as H. exact (elem_lt _ _ _ H). Qed.
Lemma znth_searchsorted u l k : sorted u -> (forall x, In x l -> In x u) -> 0 <= k < zlen l -> znth u (znth (map (searchsorted u) l) k) = znth l k.
Proof. intros Hs Hi Hk. rewrite znth_map by exact Hk. apply znth_elem. apply searchsorted_elem; [exact Hs|]. apply Hi. eapply elem_In, elem_znth, Hk. Qed.

(** reading [l] out of the values at the sorted points [u] *)
Lemma take_points {V} s d (r : arr V) (G : list Z -> Z -> V) u l : (d < length s)%nat ->
  (forall p i j, G (set_at p d j) i = G p i) ->
  shows (set_at s d (zlen u)) r (fun p => G p (znth u (nth d p 0))) -> along (set_at s d (zlen u)) d r ->
  sorted u -> (forall x, In x l -> In x u) -> nth_error s d = Some (zlen l) ->
  shows s (take_axis r d (map (searchsorted u) l)) (fun p => G p (znth l (nth d p 0))) /\ along s d (take_axis r d (map (searchsorted u) l)).
Proof.
  intros Hd HG Hr Ha Hs Hi Hl.
  destruct (take_shows _ d (zlen u) r _ (map (searchsorted u) l) Hr Ha) as [H1 H2].
  - rewrite nth_error_set_at by exact Hd. now rewrite Nat.eqb_refl.
  - now apply searchsorted_range.
  - rewrite set_at_set, zlen_map, (set_at_nth s d (zlen l) Hl) in H1, H2. split; [|exact H2]. eapply shows_ext; [exact H1|]. cbv beta. intros p Hp.
    assert (d < length p)%nat as Hdp by (rewrite <- (Forall2_len _ _ _ Hp); exact Hd).
    rewrite HG, nth_set_same by exact Hdp. f_equal. apply znth_searchsorted; auto. eapply position_at; eassumption.
Qed.

(** *** modified views *)
Section View.
Context {V : Type} (env : axenv) (Henv : env_ok env) (junk : list Z -> V).
Notation ops := (axis_ops env).
Notation get := (ViewModel.get ops junk).

Lemma slices_inds axes L : Forall2 (fun a l => in_range (axis_len a) l) axes L -> forall sls,
  Forall2 (fun sl al => expand sl (axis_len (fst al)) = Some (snd al)) sls (combine axes L) ->
  view_of_slices ops axes sls = Some (view_of_inds axes L).
Proof.
  intros H sls HS. unfold view_of_slices, view_of_inds. pose proof (Forall2_len _ _ _ H) as Hl. pose proof (Forall2_len _ _ _ HS) as Hl'. rewrite combine_length_eq in Hl' by exact Hl.
  rewrite <- Hl', Nat.eqb_refl. replace (sequence _) with (Some L); [reflexivity|]. symmetry. apply sequence_Forall2.
  revert L sls H HS Hl Hl'. induction axes as [|a axes IH]; intros L sls H HS Hl Hl'; inversion H; subst; cbn in HS; inversion HS; subst; cbn; constructor; auto.
Qed.
Lemma nonneg_range n l : in_range n l -> Forall (fun i => 0 <= i) l.
Proof. apply Forall_impl. lia. Qed.
Lemma expand_all axes L : Forall2 (fun a l => in_range (axis_len a) l) axes L ->
  Forall2 (fun sl al => expand sl (axis_len (fst al)) = Some (snd al)) (map simplify L) (combine axes L).
Proof. intros H. induction H as [|b m axes L Hb HL IH]; cbn; constructor; [|exact IH]. apply expand_simplify. exact (nonneg_range _ _ Hb). Qed.
Lemma modify_slices axes L d sl l a : Forall2 (fun a l => in_range (axis_len a) l) axes L -> nth_error axes d = Some a ->
  expand sl (axis_len a) = Some l -> in_range (axis_len a) l ->
  view_of_slices ops axes (set_at (map simplify L) d sl) = Some (view_of_inds axes (set_at L d l)).
Proof.
  intros H Ha He Hr. apply slices_inds.
  - apply Forall2_set; [exact H|]. intros b Hb. congruence.
  - revert d Ha. induction H as [|b m axes L Hb HL IH]; intros [|d] Ha; cbn in *; try discriminate.
    + injection Ha as ->. constructor; [exact He|]. now apply expand_all.
    + constructor; [|apply IH; exact Ha]. apply expand_simplify. exact (nonneg_range _ _ Hb).
Qed.
Lemma selection_range axes L : Forall2 selection axes L -> Forall2 (fun a l => in_range (axis_len a) l) axes L.
Proof. apply Forall2_impl. intros a l (_ & H & _). exact H. Qed.
Lemma modify_view axes L d pts a : Forall2 selection axes L -> nth_error axes d = Some a -> in_range (axis_len a) pts ->
  modify_slice env (view_of_inds axes L) d (SList pts) = Some (view_of_inds axes (set_at L d pts)).
Proof. intros H Ha Hr. unfold modify_slice. cbn [vaxes vslices view_of_inds]. apply (modify_slices axes L d (SList pts) pts a); auto. now apply selection_range. Qed.
Lemma unslice_view axes L d a : Forall2 selection axes L -> nth_error axes d = Some a ->
  unslice env (view_of_inds axes L) d = Some (view_of_inds axes (set_at L d (arange 0 (axis_len a) 1))).
Proof.
  intros H Ha. unfold unslice, modify_slice. cbn [vaxes vslices view_of_inds]. apply (modify_slices axes L d whole _ a); auto; [now apply selection_range|apply range_arange].
Qed.

(** the values at the points [pts] along axis [d] *)
Lemma read_points (x : var axis V) D L d a pts : responds env x D -> Forall2 selection (var_axes x) L -> nth_error (var_axes x) d = Some a ->
  selection a pts ->
  exists r, get (view_of_inds (var_axes x) (set_at L d pts)) x true true = Some r /\
    shows (set_at (map zlen L) d (zlen pts)) r (fun p => D (set_at (gather L p) d (znth pts (nth d p 0)))) /\ along (set_at (map zlen L) d (zlen pts)) d r /\
    shape r = set_at (map zlen L) d (zlen pts).
Proof.
  intros Hx HL Ha Hp. destruct (responds_part env Henv junk x D (set_at L d pts) Hx) as (r & Hr & Hi).
  - apply Forall2_set; [exact HL|]. intros b Hb. congruence.
  - exists r. split; [exact Hr|]. pose proof (map_set_at (@zlen Z) L d pts) as E. rewrite E in Hi. split; [|split].
    + apply shows_array. eapply array_is_ext; [exact Hi|]. intros p _. cbv beta. now rewrite gather_set.
    + unfold along. now rewrite (proj1 Hi).
    + exact (proj1 Hi).
Qed.

(** *** a second variable on some of the axes *)
(** [dx] has the axes [al] of the list [B] *)
Definition on_axes (B : list axis) (al : list nat) (dx : var axis V) : Prop :=
  NoDup al /\ Forall2 (fun a i => nth_error B i = Some a) (var_axes dx) al.
Definition own_js (dx : var axis V) (al : list nat) : list (nat * list Z) := combine al (map (fun a => arange 0 (axis_len a) 1) (var_axes dx)).
Lemma own_js_derived B dx al : separate B -> on_axes B al dx -> Forall2 (derived B) (var_axes dx) (own_js dx al) /\ map fst (own_js dx al) = al.
Proof.
  intros Hs [_ H]. unfold own_js. split; [|apply map_fst_combine; rewrite map_length; exact (eq_sym (Forall2_len _ _ _ H))].
  induction H as [|a i axes al Ha H IH]; cbn; constructor; [|exact IH].
  split; [apply range_arange|]. exists a. cbn [fst snd]. split; [exact Ha|]. split; [now right|]. intros i' b' Hne Hb'. exact (Hs i i' a b' Ha Hb' (not_eq_sym Hne)).
Qed.
Lemma own_js_data B dx al (D : list Z -> V) q : on_axes B al dx -> position (map axis_len B) q -> derived_data D (own_js dx al) q = D (map (fun i => nth i q 0) al).
Proof.
  intros [_ H] Hq. unfold derived_data, own_js. f_equal. induction H as [|a i axes al Ha H IH]; cbn; [reflexivity|]. f_equal; [|exact IH].
  apply znth_elem, elem_arange01. split; [reflexivity|]. eapply position_at; [exact Hq|]. rewrite nth_error_map, Ha. reflexivity.
Qed.
Lemma outshape_shows s sigma (r : arr V) E : array_is r (outshape s sigma) E ->
  (forall p p', (forall i, In i sigma -> nth i p 0 = nth i p' 0) -> length p = length s -> length p' = length s -> E p = E p') ->
  shows s r E /\ forall d, In d sigma -> along s d r.
Proof.
  intros [Hs Hv] HE. pose proof (outshape_fits s sigma) as Hf. split.
  - split; [rewrite Hs; exact Hf|]. intros p Hp. rewrite Hs.
    pose proof (Forall2_len _ _ _ Hp) as Hlen. pose proof (length_outshape junk s sigma) as Ho.
    assert (length (squash (outshape s sigma) p) = length p) as Hl by (unfold squash; rewrite map_length, combine_length; lia).
    rewrite Hv.
    + apply HE; [|congruence|congruence]. intros i Hi. destruct (nth_error s i) as [n|] eqn:En.
      * pose proof (nth_outshape s sigma i n En Hi) as Hn. destruct (nth_error p i) as [x|] eqn:Ex.
        -- assert (nth_error (squash (outshape s sigma) p) i = Some (if n =? 1 then 0 else x)) as Hq by (unfold squash; rewrite nth_error_map, nth_error_combine, Hn, Ex; reflexivity).
           rewrite (nth_error_nth _ _ 0 Hq), (nth_error_nth _ _ 0 Ex). destruct (Z.eqb_spec n 1) as [->|]; [|reflexivity].
           pose proof (Forall2_nth_error _ _ _ _ _ _ Hp En Ex) as K. cbv beta in K. lia.
        -- apply nth_error_None in Ex. rewrite !nth_overflow by lia. reflexivity.
      * apply nth_error_None in En. rewrite !nth_overflow by lia. reflexivity.
    + clear - Hp Hf. induction Hf as [|m n t s Hmn Hs IH] in p, Hp |- *; inversion Hp as [|? x ? p' Hx Hp']; subst; constructor; [|now apply IH].
      cbn. destruct (Z.eqb_spec m 1); lia.
  - intros d Hd. unfold along. rewrite Hs. destruct (nth_error s d) as [n|] eqn:En; [now apply nth_outshape|].
    apply nth_error_None in En. apply nth_error_None. rewrite (length_outshape junk). exact En.
Qed.
Lemma selection_set axes L d a pts : Forall2 selection axes L -> nth_error axes d = Some a -> selection a pts -> Forall2 selection axes (set_at L d pts).
Proof. intros H Ha Hp. apply Forall2_set; [exact H|]. intros b Hb. congruence. Qed.

Lemma map_znth_arange n l : in_range n l -> map (znth (arange 0 n 1)) l = l.
Proof. apply arange_znth. Qed.

Lemma read_other_shape B L (dx : var axis V) X al : responds env dx X -> separate B -> Forall2 selection B L -> on_axes B al dx ->
  exists r, get (view_of_inds B L) dx true true = Some r /\ shape r = outshape (map zlen L) al /\
    shows (map zlen L) r (fun p => X (map (fun i => nth i (gather L p) 0) al)) /\ forall d, In d al -> along (map zlen L) d r.
Proof.
  intros Hx Hs HL Ho. pose proof (own_js_derived B dx al Hs Ho) as [Hd Hf]. pose proof Ho as [Hnd Hal].
  destruct (get_derived_inc env Henv junk B L dx X (own_js dx al) Hx) as (r & Hr & Hi).
  - eapply Forall2_impl; [|exact HL]. intros b l (H1 & H2 & _). auto.
  - exact Hd.
  - now rewrite Hf.
  - apply Forall_forall. intros [i ind] Hi. unfold own_js in Hi. apply In_nth_error in Hi as (k & Hk). rewrite nth_error_combine in Hk.
    destruct (nth_error al k) as [i'|] eqn:Ei; [|discriminate]. destruct (nth_error (map _ _) k) as [ind'|] eqn:En; [|discriminate]. injection Hk as -> ->.
    rewrite nth_error_map in En. destruct (nth_error (var_axes dx) k) as [a|] eqn:Ea; [|discriminate]. injection En as <-.
    pose proof (Forall2_nth_error _ _ _ _ _ _ Hal Ea Ei) as HB. cbv beta in HB.
    destruct (nth_error L i) as [l|] eqn:El.
    + destruct (Forall2_nth_error _ _ _ _ _ _ HL HB El) as (_ & R1 & R2). rewrite (nth_error_nth _ _ [] El). now rewrite arange_znth.
    + apply nth_error_None in El. rewrite <- (Forall2_len _ _ _ HL) in El. assert (i < length B)%nat by (apply nth_error_Some; congruence). lia.
  - exists r. split; [exact Hr|]. rewrite Hf in Hi. split; [apply Hi|].
    assert (length (map zlen L) = length L) as HsL by apply map_length.
    apply outshape_shows.
    + eapply array_is_ext; [exact Hi|]. cbv beta. intros p Hp. apply (own_js_data B dx al X _ Ho).
      apply gather_position; [apply Forall2_map_l; now apply selection_range|].
      pose proof (outshape_fits (map zlen L) al) as Hfit. assert (Forall (fun n => 0 < n) (map zlen L)) as Hpos.
      { apply Forall_map. apply Forall_forall. intros l Hl. destruct (Forall2_In_r _ _ _ _ HL Hl) as (b & _ & Hne & _). destruct l; [congruence|]. unfold zlen. cbn. lia. }
      exact (fits_position _ _ p Hfit Hpos Hp).
    + intros p p' E H1 H2. f_equal. apply map_ext_in. intros i Hi'.
      assert (i < length L)%nat as HiL.
      { rewrite <- (Forall2_len _ _ _ HL). destruct (Forall2_In_r _ _ _ _ Hal Hi') as (a & _ & Ha). apply nth_error_Some. congruence. }
      rewrite !(nth_gather junk) by (congruence || lia). f_equal. now apply E.
Qed.
Lemma read_other B L (dx : var axis V) X al : responds env dx X -> separate B -> Forall2 selection B L -> on_axes B al dx ->
  exists r, get (view_of_inds B L) dx true true = Some r /\
    shows (map zlen L) r (fun p => X (map (fun i => nth i (gather L p) 0) al)) /\ forall d, In d al -> along (map zlen L) d r.
Proof.
  intros Hx Hs HL Ho. destruct (read_other_shape B L dx X al Hx Hs HL Ho) as (r & H1 & _ & H2 & H3). exists r. auto.
Qed.
End View.
