(** Lemmas for variables that are spread over many files: reading one of them. *)
From Coq Require Import ZArith List Bool Lia ZifyBool Permutation QArith_base.
From Verif Require Import CalModel CalSpec TimeSearchModel TimeSearchSpec TimeSearchProofs TimeMapProofs TimeDateProofs SortSpec IndexModel IndexSpec IndexProofs ArrModel ArrProofs
  ViewModel ViewSpec ViewProofs AxisModel AxisSpec AxisProofs VarOpsModel VarOpsSpec VarOpsProofs NumModel NumProofs ReduceModel ReduceSpec ArgProofs StencilModel StencilSpec StencilProofs IntgrProofs
  RespondProofs ChunkProofs LoopProofs BlockProofs FlattenProofs InterpView SmoothModel SmoothView WindowProofs CompositeProofs ConcatModel ConcatSpec ConcatProofs ConcatAxis ConcatVar ClimModel ClimSpec ClimSum ClimAxis ClimChunk ClimView
  MultiFileModel MultiFileSpec.
Import ListNotations.
Open Scope Z_scope.
Notation zlen := IndexSpec.zlen.
Notation znth := ArrModel.znth.

Lemma np_index_list l n : in_range n l -> np_index (SList l) n = Some l.
Proof.
  intros H. unfold np_index. assert (forallb (fun i => (- n <=? i) && (i <? n)) l = true) as ->.
  { apply forallb_forall. intros x Hx. pose proof (proj1 (Forall_forall _ _) H x Hx) as B. cbn in B. lia. }
  f_equal. rewrite <- (map_id l) at 2. apply map_ext_in. intros x Hx. pose proof (proj1 (Forall_forall _ _) H x Hx) as B. cbn in B. unfold from_end. destruct (x <? 0) eqn:E; lia.
Qed.

Lemma set_along_list {V} (a b : arr V) s d n l F : shape a = s -> nth_error s d = Some n -> NoDup l -> in_range n l -> array_is b (set_at s d (zlen l)) F ->
  exists c, set_along a d (SList l) b = Some c /\ shape c = s /\
    forall p, position s p -> (forall k, elem l k (nth d p 0) -> val c p = F (set_at p d k)) /\ (~ In (nth d p 0) l -> val c p = val a p).
Proof.
  intros Ha Hn Hnd Hr [Hb1 Hb2]. unfold set_along. rewrite Ha, (nth_error_nth _ _ 0 Hn), (np_index_list _ _ Hr). cbn [bind].
  destruct (broadcast_same b _ Hb1) as (b' & E1 & E2 & E3). rewrite E1. cbn [bind]. eexists. split; [reflexivity|]. split; [reflexivity|].
  intros p Hp. cbn [val]. split.
  - intros k Hk. rewrite (last_index_elem _ _ k 0 Hnd Hk). cbn [Z.add]. 
    assert (position (set_at s d (zlen l)) (set_at p d k)) as Hq by (apply Forall2_set_both; [exact Hp|exact (elem_range _ _ _ Hk)]).
    rewrite E3 by exact Hq. apply Hb2. exact Hq.
  - intros Hni. now rewrite (last_index_None _ _ _ Hni).
Qed.

Lemma map_snd_combine' {X Y} (l : list X) : forall M : list Y, length l = length M -> map snd (combine l M) = M.
Proof. induction l as [|y l IH]; intros [|z M] E; cbn in *; try lia; [reflexivity|]. f_equal. apply IH. lia. Qed.
Lemma same_kind a b : axis_same a b = true -> match a, b with Time _, Time _ => True | Time _, _ => False | _, Time _ => False | _, _ => True end.
Proof. destruct a, b; cbn; intros H; try discriminate; exact Logic.I. Qed.

Section File.
Context (env : axenv) (Henv : env_ok env) (lexsort : list (list Z) -> list Z) (Hlex : lexsort_ok lexsort) (junk : list Z -> num).
Notation ops := (axis_ops env).
Notation var := (ViewModel.var axis num).
Notation get := (ViewModel.get ops junk).
Context (A : list axis) (Hsep : separate A) (ti : nat) (t : taxis) (Ht : nth_error A ti = Some (Time t)) (Hgood : good_axis (Time t))
        (Honly : forall i s, nth_error A i = Some (Time s) -> i = ti).
Context (K : list (list Z)) (HK : Forall2 selection A K).
Notation Kt := (nth ti K []).
Context (times : taxis) (Hsl : sliced (Time t) Kt (Time times)).

Lemma ti_in : (ti < length A)%nat.
Proof. apply nth_error_Some. congruence. Qed.
Lemma lenK : length K = length A.
Proof. symmetry. exact (Forall2_len _ _ _ HK). Qed.
Lemma Kt_at : nth_error K ti = Some Kt.
Proof. apply nth_error_nth'. rewrite lenK. exact ti_in. Qed.
Lemma Kt_choice : selection (Time t) Kt.
Proof. exact (Forall2_nth_error _ _ _ _ _ _ HK Ht Kt_at). Qed.
Lemma times_len : zlen (t_dates times) = zlen Kt.
Proof. exact (sliced_len _ _ _ Hgood Hsl). Qed.
Lemma times_good : good_axis (Time times).
Proof. destruct Kt_choice as (_ & Hr & Hi). exact (sliced_good _ _ _ Hgood Hr (increasing_NoDup _ Hi) Hsl). Qed.
Lemma times_mask : t_mask times = t_mask t.
Proof. apply Hsl. Qed.
Lemma times_class : t_class times = t_class t.
Proof. apply Hsl. Qed.
Lemma times_record j : 0 <= j < zlen Kt -> record_of (t_mask t) times j = record_of (t_mask t) t (znth Kt j).
Proof.
  intros Hj. destruct Kt_choice as (_ & Hr & _). destruct Hsl as (E1 & E2 & E3 & E4 & E5 & E6 & E7). unfold record_of, records. rewrite E6, project_pick by exact Hr.
  assert (elem (pick [] (map (project (t_mask t)) (t_dates t)) Kt) j (nth (Z.to_nat (znth Kt j)) (map (project (t_mask t)) (t_dates t)) [])) as K1.
  { apply elem_pick; [cbn [axis_len] in Hr; unfold zlen in *; rewrite map_length; exact Hr|]. exists (znth Kt j). split; [apply elem_znth; exact Hj|].
    assert (0 <= znth Kt j < zlen (t_dates t)) as B by (eapply in_range_elem; [exact Hr|apply elem_znth; exact Hj]).
    split; [lia|]. apply nth_error_nth'. rewrite map_length. unfold zlen in B. lia. }
  destruct K1 as [_ K1]. apply nth_error_nth. exact K1.
Qed.

(** which requested times (numbered as in the request) the times [c] of a file are *)
Definition found (c : taxis) (i j : Z) : Prop := 0 <= i < zlen Kt /\ same_time t c (znth Kt i) j.
Definition pairs (c : taxis) (m : list (Z * Z)) : Prop := NoDup m /\ forall i j, In (i, j) m <-> found c i j.

Lemma pairs_exist c : t_class c = t_class t -> t_mask c = t_mask t -> good_axis (Time c) -> exists m, common_map lexsort times c = Some m /\ pairs c m.
Proof.
  intros Hc Hm (_ & _ & Gf & _ & Gn & _). destruct (common_map_axes lexsort Hlex times c) as (m & E & N & H).
  - rewrite times_class. exact Hc.
  - exact Gf.
  - rewrite times_mask, Hm. apply mask_sub_refl.
  - exact Gn.
  - exists m. split; [exact E|]. split; [exact N|]. intros i j. rewrite H, times_len, Hm. unfold found, same_time. split.
    + intros (H1 & H2 & H3). rewrite (times_record i H1) in H3. split; [exact H1|]. split; [|split; assumption]. destruct Kt_choice as (_ & Hr & _). eapply in_range_elem; [exact Hr|apply elem_znth; exact H1].
    + intros (H1 & H2 & H3 & H4). rewrite (times_record i H1). auto.
Qed.

Section Pairs.
Context (c : taxis) (Hcc : t_class c = t_class t) (Hcm : t_mask c = t_mask t) (Gc : good_axis (Time c)) (m : list (Z * Z)) (Hm : pairs c m) (Hne : m <> []).
Notation big := (map fst m).
Notation small := (map snd m).

Lemma rec_in s i : 0 <= i < zlen (t_dates s) -> at_ (records (t_mask t) s) i (record_of (t_mask t) s i).
Proof. intros H. apply record_at. auto. Qed.
Lemma found_fun_r i j j' : found c i j -> found c i j' -> j = j'.
Proof.
  intros (H1 & H2 & H3 & H4) (_ & _ & H3' & H4'). destruct Gc as (_ & _ & _ & _ & Gn & _). rewrite Hcm in Gn. apply (NoDup_at _ _ _ (record_of (t_mask t) c j) Gn); [apply rec_in; exact H3|].
  rewrite <- H4, H4'. apply rec_in. exact H3'.
Qed.
Lemma found_fun_l i i' j : found c i j -> found c i' j -> i = i'.
Proof.
  intros (H1 & H2 & H3 & H4) (H1' & H2' & _ & H4'). destruct times_good as (_ & _ & _ & _ & Gn & _). rewrite times_mask in Gn. apply (NoDup_at _ _ _ (record_of (t_mask t) times i) Gn); [apply rec_in; rewrite times_len; exact H1|].
  rewrite (times_record i H1), H4, <- H4', <- (times_record i' H1'). apply rec_in. rewrite times_len. exact H1'.
Qed.
Lemma big_NoDup : NoDup big.
Proof. destruct Hm as [N H]. apply NoDup_map_in; [|exact N]. intros [i j] [i' j'] H1 H2 E. cbn in E. subst i'. apply H in H1, H2. f_equal. exact (found_fun_r _ _ _ H1 H2). Qed.
Lemma small_NoDup : NoDup small.
Proof. destruct Hm as [N H]. apply NoDup_map_in; [|exact N]. intros [i j] [i' j'] H1 H2 E. cbn in E. subst j'. apply H in H1, H2. f_equal. exact (found_fun_l _ _ _ H1 H2). Qed.
Lemma big_range : in_range (zlen Kt) big.
Proof. apply Forall_forall. intros i Hi. apply in_map_iff in Hi as ([i' j] & E & H). cbn in E. subst i'. apply (proj2 Hm) in H. apply H. Qed.
Lemma small_range : in_range (zlen (t_dates c)) small.
Proof. apply Forall_forall. intros i Hi. apply in_map_iff in Hi as ([i' j] & E & H). cbn in E. subst i. apply (proj2 Hm) in H. apply H. Qed.
Lemma pair_at k i j : elem m k (i, j) -> elem big k i /\ elem small k j.
Proof. intros [H1 H2]. split; (split; [exact H1|]); [exact (map_nth_error fst _ _ H2)|exact (map_nth_error snd _ _ H2)]. Qed.
Lemma big_small k i : elem big k i -> exists j, elem small k j /\ found c i j.
Proof.
  intros [H1 H2]. destruct (nth_error m (Z.to_nat k)) as [[i' j]|] eqn:E; [|rewrite nth_error_map, E in H2; discriminate]. rewrite nth_error_map, E in H2. injection H2 as <-.
  exists j. split; [exact (proj2 (pair_at k i' j (conj H1 E)))|]. apply (proj2 Hm). exact (nth_error_In _ _ E).
Qed.

(** the view that the file is asked for *)
Definition N : list axis := set_at A ti (Time times).
Definition KN : list (list Z) := set_at K ti big.
Lemma N_len : length KN = length N.
Proof. unfold KN, N. rewrite !length_set_at. exact lenK. Qed.
Lemma N_at i : nth_error N i = if Nat.eqb ti i then Some (Time times) else nth_error A i.
Proof. apply nth_error_set_at. exact ti_in. Qed.
Lemma KN_at i : nth_error KN i = if Nat.eqb ti i then Some big else nth_error K i.
Proof. apply nth_error_set_at. rewrite lenK. exact ti_in. Qed.
Lemma N_ranges : Forall2 (fun a l => in_range (axis_len a) l) N KN.
Proof. apply Forall2_set_both; [apply selection_range; exact HK|]. cbn [axis_len]. rewrite times_len. exact big_range. Qed.
Lemma the_view : replace_axis env (view_of_inds A K) ti (Time times) (SList big) = Some (view_of_inds N KN).
Proof. apply replace_inds; [apply selection_range; exact HK| |exact ti_in]. cbn [axis_len]. rewrite times_len. exact big_range. Qed.

Lemma unrelated_times b : unrelated b (Time t) -> unrelated b (Time times).
Proof. apply (sliced_unrelated _ _ _ b Hsl). Qed.

Context (B : list axis) (HB : matching ti A B).
Lemma other_mapped j b l : j <> ti -> nth_error B j = Some b -> nth_error K j = Some l -> mapped ops (view_of_inds N KN) b (j, l).
Proof.
  intros Hj Hb Hl. destruct HB as (HL & _ & HS & HU). destruct (nth_error A j) as [a|] eqn:Ea.
  2: { apply nth_error_None in Ea. assert (j < length B)%nat by (apply nth_error_Some; congruence). lia. }
  apply (mapped_same ops junk N KN b j a l); [exact N_len| | | | |].
  - rewrite N_at. destruct (Nat.eqb_spec ti j); [congruence|exact Ea].
  - rewrite KN_at. destruct (Nat.eqb_spec ti j); [congruence|exact Hl].
  - cbn. apply (HS j); assumption.
  - intros k b' Hk Hb'. cbn. apply unrelated_same. rewrite N_at in Hb'. destruct (Nat.eqb_spec ti k) as [E|E].
    + injection Hb' as <-. apply unrelated_times. apply (HU ti j (Time t) b); auto.
    + apply (HU k j b' b); [lia|assumption|assumption].
  - cbn [len axis_ops]. rewrite (same_len b a) by (apply (HS j); assumption). apply (Forall2_nth_error _ _ _ _ _ _ HK Ea Hl).
Qed.

Lemma sub_records : map (project (t_mask c)) (t_dates times) = records (t_mask t) times.
Proof. rewrite Hcm. reflexivity. Qed.
Lemma zlen_records s : zlen (records (t_mask t) s) = zlen (t_dates s).
Proof. unfold records, zlen. now rewrite map_length. Qed.
Lemma rec_nth s i : 0 <= i < zlen (t_dates s) -> elem (records (t_mask t) s) i (record_of (t_mask t) s i).
Proof. intros H. split; [lia|]. apply nth_error_nth'. unfold records. rewrite map_length. unfold zlen in H. lia. Qed.
(** picking the common times from either axis gives the same records *)
Lemma picked : pick [] (records (t_mask t) times) big = pick [] (records (t_mask t) c) small.
Proof.
  unfold pick. rewrite !map_map. apply map_ext_in. intros [i j] Hin. cbn [fst snd]. apply (proj2 Hm) in Hin as (H1 & H2 & H3 & H4).
  fold (record_of (t_mask t) times i). fold (record_of (t_mask t) c j). rewrite (times_record i H1). exact H4.
Qed.

Lemma time_mapped : nth_error B ti = Some (Time c) -> mapped ops (view_of_inds N KN) (Time c) (ti, small).
Proof.
  intros Hb. destruct HB as (HL & _ & HS & HU).
  assert (Forall (fun i => 0 <= i) small) as Hsm by (eapply Forall_impl; [|exact small_range]; cbn; intros; lia).
  assert (nth ti (vinds (view_of_inds N KN)) [] = big) as EN by (apply nth_error_nth; cbn; rewrite KN_at, Nat.eqb_refl; reflexivity).
  assert (zlen small = zlen big) as EZ by (unfold zlen; now rewrite !map_length).
  split; [|split; [exact small_range|split; [cbn; unfold N; rewrite length_set_at; exact ti_in|cbn [snd fst]; rewrite EN; exact EZ]]].
  cbn [fst snd]. unfold map_axis.
  assert (forall k b', (k < ti)%nat -> nth_error N k = Some b' -> unrelated (Time c) b') as Hun.
  { intros k b' Hk Hb'. rewrite N_at in Hb'. destruct (Nat.eqb_spec ti k); [lia|]. apply (HU k ti b' (Time c)); [lia|assumption|assumption]. }
  destruct (axis_same (Time c) (Time times)) eqn:Es.
  - (* the same axis: the records are the same *)
    assert (find_first (fun a => if same ops (Time c) a then Some tt else None) (vaxes (view_of_inds N KN)) = Some (ti, tt)) as ->.
    { apply (find_first_at _ _ _ (Time times)); [cbn; now rewrite N_at, Nat.eqb_refl|cbn [same axis_ops]; now rewrite Es|].
      intros k y Hk Hy. cbn [same axis_ops]. now rewrite (unrelated_same _ _ (Hun k y Hk Hy)). }
    exists (nth ti (vslices (view_of_inds N KN)) (SList [])). split; [reflexivity|]. cbn [vslices view_of_inds].
    rewrite (nth_simplify KN ti big) by (rewrite KN_at, Nat.eqb_refl; reflexivity).
    assert (records (t_mask t) c = records (t_mask t) times) as ER.
    { cbn [axis_same] in Es. unfold time_eq in Es. rewrite !andb_true_iff in Es. destruct Es as [[[_ _] EL] EF]. apply Nat.eqb_eq in EL. rewrite Hcm in EF.
      destruct times_good as (_ & _ & _ & _ & _ & Gr). rewrite times_mask in Gr.
      assert (length (records (t_mask t) c) = length (records (t_mask t) times)) as EL' by (unfold records; now rewrite !map_length).
      apply list_ext_len; [unfold zlen; now rewrite EL'|]. intros k x y Hx Hy. apply rows_eq.
      - destruct Hx as [_ Hx], Hy as [_ Hy]. unfold records in Hx, Hy. apply nth_error_In in Hx, Hy. apply in_map_iff in Hx as (? & <- & _), Hy as (? & <- & _). now rewrite !project_len.
      - apply (proj1 (Forall_forall _ _) Gr). eapply elem_In. exact Hy.
      - exact (Forall2_forallb (fun r s => forallb (fun '(x, y) => zclose x y) (combine r s)) _ _ EF k x y Hx Hy). }
    assert (small = big) as Esb.
    { pose proof picked as P. rewrite <- ER in P. destruct times_good as (_ & _ & _ & _ & Gn & _). rewrite times_mask, <- ER in Gn.
      unfold pick in P. rewrite !map_map in P. symmetry. apply map_ext_in. intros [i j] Hin. cbn [fst snd].
      pose proof (ext_in_map P (i, j) Hin) as Q. cbn [fst snd] in Q. apply (proj2 Hm) in Hin as (H1 & H2 & H3 & H4).
      assert (0 <= i < zlen (records (t_mask t) c)) as Hi by (rewrite ER, zlen_records, times_len; exact H1).
      assert (0 <= j < zlen (records (t_mask t) c)) as Hj by (rewrite zlen_records; exact H3).
      unfold zlen in Hi, Hj. assert (Z.to_nat i = Z.to_nat j) as E; [|lia]. apply (proj1 (NoDup_nth _ []) Gn); [lia|lia|exact Q]. }
    rewrite Esb. apply expand_simplify. rewrite <- Esb. exact Hsm.
  - assert (find_first (fun a => if same ops (Time c) a then Some tt else None) (vaxes (view_of_inds N KN)) = None) as ->.
    { apply find_first_none. intros y Hy. cbn [vaxes view_of_inds] in Hy. apply In_nth_error in Hy as [k Hy]. cbn [same axis_ops]. destruct (Nat.eq_dec ti k) as [E|E].
      - subst k. rewrite N_at, Nat.eqb_refl in Hy. injection Hy as <-. now rewrite Es.
      - rewrite N_at in Hy. destruct (Nat.eqb_spec ti k); [congruence|]. rewrite (unrelated_same _ _ (HU k ti y (Time c) (not_eq_sym E) Hy Hb)). reflexivity. }
    rewrite (subaxes_eq env N KN) by exact N_ranges.
    assert (axis_map_to env (Time c) (axis_take env (Time times) big) = Some small) as EM.
    { assert (in_range (axis_len (Time times)) big) as Hbr by (cbn [axis_len]; rewrite times_len; exact big_range).
      pose proof (sliced_self env Henv (Time times) big times_good Hbr) as Hss. pose proof (take_time env (Time times) big) as Htt.
      destruct (axis_take env (Time times) big) as [| |s]; try (destruct Htt; fail). destruct Hss as (E1 & E2 & E3 & E4 & E5 & E6 & E7).
      destruct (time_axis_map_to env Henv c s Gc) as (ind & E & M); [rewrite E1, times_class; exact Hcc|rewrite E5, times_mask, Hcm; apply mask_sub_refl|]. rewrite E. f_equal.
      rewrite E6, project_pick, sub_records, picked, <- Hcm in M by exact Hbr. destruct Gc as (_ & _ & _ & _ & Gn & _).
      apply (mapped_exact (records (t_mask c) c) small ind Gn); [rewrite Hcm, zlen_records; exact small_range|exact M]. }
    assert (find_first (mapto ops (Time c)) (map (fun '(a, l) => axis_take env a l) (combine N KN)) = Some (ti, small)) as ->.
    { apply (find_first_at _ _ _ (axis_take env (Time times) big)).
      - rewrite nth_error_map, nth_error_combine, N_at, KN_at, Nat.eqb_refl. reflexivity.
      - exact EM.
      - intros k y Hk Hy. rewrite nth_error_map, nth_error_combine in Hy. destruct (nth_error N k) as [a|] eqn:Ea; [|discriminate]. destruct (nth_error KN k) as [l|] eqn:El; [|discriminate]. injection Hy as <-.
        cbn [mapto axis_ops]. apply unrelated_map. apply take_unrelated. exact (Hun k a Hk Ea). }
    exists (simplify small). split; [reflexivity|]. apply expand_simplify. exact Hsm.
Qed.

Lemma choice_other j b l : j <> ti -> nth_error B j = Some b -> nth_error K j = Some l -> choice b l.
Proof.
  intros Hj Hb Hl. destruct HB as (HL & _ & HS & HU). destruct (nth_error A j) as [a|] eqn:Ea.
  2: { apply nth_error_None in Ea. assert (j < length B)%nat by (apply nth_error_Some; congruence). lia. }
  pose proof (Forall2_nth_error _ _ _ _ _ _ HK Ea Hl) as S. apply selection_various in S as [S1 S2]. split; [|exact S2].
  rewrite (same_len b a) by (apply (HS j); assumption). exact S1.
Qed.

Theorem get_timed (x : var) F : responds env x F -> var_axes x = B -> nth_error B ti = Some (Time c) ->
  exists r, get (view_of_inds N KN) x true true = Some r /\
    array_is r (set_at (map zlen K) ti (zlen m)) (fun p => F (set_at (gather K p) ti (znth small (nth ti p 0)))).
Proof.
  intros Hx HxB Hb. pose proof ti_in as Hti. pose proof lenK as HlK. pose proof (proj1 HB) as HlB.
  set (M := set_at K ti small). set (n := length A).
  assert (length M = n) as HlM by (unfold M; now rewrite length_set_at).
  assert (length (seq 0 n) = length M) as Hsl' by now rewrite seq_length.
  assert (map fst (combine (seq 0 n) M) = seq 0 n) as E1 by (apply map_fst_combine; exact Hsl').
  assert (map snd (combine (seq 0 n) M) = M) as E2 by (apply map_snd_combine'; exact Hsl').
  assert (forall j, nth_error M j = if Nat.eqb ti j then Some small else nth_error K j) as HM by (intros j; apply nth_error_set_at; rewrite HlK; exact Hti).
  assert (small <> []) as Hsne by (intros E; apply Hne; destruct m; [reflexivity|discriminate]).
  assert (Forall2 choice (var_axes x) M) as HC.
  { rewrite HxB. apply Forall2_intro_nth; [lia|]. intros j b l Hbj Hl. rewrite HM in Hl. destruct (Nat.eqb_spec ti j) as [<-|E].
    - injection Hl as <-. rewrite Hb in Hbj. injection Hbj as <-. split; [exact small_range|apply NoDup_various; [exact Hsne|exact small_NoDup]].
    - exact (choice_other j b l (not_eq_sym E) Hbj Hl). }
  destruct (get_fetch ops junk N KN x F (combine (seq 0 n) M)) as (r & Er & Ar).
  - exact N_len.
  - rewrite E2. exact (fetch_any env junk x F M Hx HC).
  - rewrite HxB. apply Forall2_intro_nth; [rewrite combine_length_eq by exact Hsl'; rewrite seq_length; exact HlB|]. intros j b [i l] Hbj Hl.
    rewrite nth_error_combine, nth_error_seq, HM in Hl. destruct (Nat.ltb j n) eqn:El; [|discriminate]. destruct (Nat.eqb_spec ti j) as [<-|E].
    + injection Hl as <- <-. rewrite Hb in Hbj. injection Hbj as <-. exact (time_mapped Hb).
    + destruct (nth_error K j) as [l'|] eqn:EK; [|discriminate]. injection Hl as <- <-. exact (other_mapped j b l' (not_eq_sym E) Hbj EK).
  - rewrite E1. apply seq_NoDup.
  - rewrite E2. apply Forall_forall. intros l Hl. destruct (In_nth_error _ _ Hl) as [j Hj].
    destruct (nth_error (var_axes x) j) as [b|] eqn:Eb; [exact (choice_ne _ _ (Forall2_nth_error _ _ _ _ _ _ HC Eb Hj))|].
    apply nth_error_None in Eb. assert (j < length M)%nat by (apply nth_error_Some; congruence). rewrite HxB in Eb. lia.
  - exists r. split; [exact Er|]. rewrite E1, E2 in Ar.
    assert (outshape (map zlen KN) (seq 0 n) = set_at (map zlen K) ti (zlen m)) as ES.
    { rewrite outshape_full by (intros i Hi; apply in_seq; rewrite map_length in Hi; pose proof N_len; unfold KN, n in *; rewrite length_set_at in Hi; lia).
      unfold KN. rewrite map_set_at. f_equal. unfold zlen. now rewrite map_length. }
    rewrite ES in Ar. destruct Ar as [A1 A2]. split; [exact A1|]. intros p Hp. rewrite A2 by exact Hp. f_equal.
    assert (length p = length M) as Hlp by (pose proof (Forall2_len _ _ _ Hp) as E; rewrite length_set_at, map_length in E; lia).
    rewrite <- HlM. rewrite gather_nth_seq by exact Hlp. apply gather_set.
Qed.

Lemma remove_set {X} (l : list X) i y : remove_at (set_at l i y) i = remove_at l i.
Proof. revert i. induction l as [|z l IH]; intros [|i]; cbn; try reflexivity. now rewrite IH. Qed.

Theorem get_untimed (x : var) D : responds env x D -> var_axes x = remove_at B ti -> zlen (t_dates c) = 1 ->
  exists r, get (view_of_inds N KN) x true true = Some r /\
    array_is r (set_at (map zlen K) ti (zlen m)) (fun p => D (remove_at (gather K p) ti)).
Proof.
  intros Hx HxB Hone. pose proof ti_in as Hti. pose proof lenK as HlK. pose proof (proj1 HB) as HlB.
  assert (zlen m = 1) as Hm1.
  { assert (length m <= 1)%nat as H1.
    { pose proof small_NoDup as Nd. pose proof small_range as Sr. rewrite Hone in Sr. rewrite <- (map_length snd m). destruct (map snd m) as [|a [|b l]]; cbn; try lia. exfalso.
      inversion Sr as [|? ? S1 S2]; subst. inversion S2; subst. inversion Nd as [|? ? N1 N2]; subst. apply N1. left. cbn in *. lia. }
    unfold zlen. destruct m; [congruence|]. cbn in *. lia. }
  set (M := remove_at K ti). set (n := length A). set (sg := remove_at (seq 0 n) ti).
  assert (length sg = length M) as Hsl' by (unfold sg, M; rewrite !length_remove_at; rewrite ?seq_length; lia).
  assert (map fst (combine sg M) = sg) as E1 by (apply map_fst_combine; exact Hsl').
  assert (map snd (combine sg M) = M) as E2 by (apply map_snd_combine'; exact Hsl').
  assert (forall j, (if Nat.ltb j ti then j else S j) <> ti) as Hpl by (intros j; destruct (Nat.ltb_spec j ti); lia).
  assert (length (var_axes x) = length M) as HlM by (rewrite HxB; unfold M; rewrite !length_remove_at; lia).
  assert (Forall2 choice (var_axes x) M) as HC.
  { apply Forall2_intro_nth; [exact HlM|]. rewrite HxB. intros j b l Hbj Hl. unfold M in Hl. rewrite nth_error_remove in Hbj. rewrite nth_error_remove in Hl. exact (choice_other _ b l (Hpl j) Hbj Hl). }
  destruct (get_fetch ops junk N KN x D (combine sg M)) as (r & Er & Ar).
  - exact N_len.
  - rewrite E2. exact (fetch_any env junk x D M Hx HC).
  - apply Forall2_intro_nth; [rewrite combine_length_eq by exact Hsl'; lia|]. rewrite HxB. intros j b [i l] Hbj Hl.
    rewrite nth_error_combine in Hl. unfold sg, M in Hl. rewrite nth_error_remove in Hbj. rewrite !nth_error_remove, nth_error_seq in Hl.
    destruct (Nat.ltb (if Nat.ltb j ti then j else S j) n); [|discriminate]. destruct (nth_error K (if Nat.ltb j ti then j else S j)) as [l'|] eqn:EK; [|discriminate]. injection Hl as <- <-.
    exact (other_mapped _ b l' (Hpl j) Hbj EK).
  - rewrite E1. unfold sg. clear. generalize 0%nat. generalize n as k. intros k. revert ti. induction k as [|k IH]; intros i a; [destruct i; constructor|]. destruct i as [|i]; cbn; [apply seq_NoDup|].
    constructor; [|apply IH]. intros H. assert (forall (l : list nat) i y, In y (remove_at l i) -> In y l) as HI.
    { clear. induction l as [|z l IH]; intros [|i] y H; cbn in *; auto. destruct H as [H|H]; [auto|right; exact (IH _ _ H)]. }
    apply HI in H. apply in_seq in H. lia.
  - rewrite E2. apply Forall_forall. intros l Hl. destruct (In_nth_error _ _ Hl) as [j Hj].
    destruct (nth_error (var_axes x) j) as [b|] eqn:Eb; [exact (choice_ne _ _ (Forall2_nth_error _ _ _ _ _ _ HC Eb Hj))|].
    apply nth_error_None in Eb. assert (j < length M)%nat by (apply nth_error_Some; congruence). lia.
  - exists r. split; [exact Er|]. rewrite E1, E2 in Ar.
    assert (forall j, In j sg <-> (j < n)%nat /\ j <> ti) as Hsg.
    { intros j. unfold sg. split.
      - intros H. apply In_nth_error in H as [k Hk]. rewrite nth_error_remove, nth_error_seq in Hk. destruct (Nat.ltb_spec (if Nat.ltb k ti then k else S k) n); [|discriminate]. injection Hk as <-. split; [lia|]. apply Hpl.
      - intros [H1 H2]. apply (nth_error_In _ (if Nat.ltb j ti then j else pred j)). rewrite nth_error_remove, nth_error_seq.
        assert ((if Nat.ltb (if Nat.ltb j ti then j else pred j) ti then if Nat.ltb j ti then j else pred j else S (if Nat.ltb j ti then j else pred j)) = j) as ->.
        { destruct (Nat.ltb_spec j ti); [destruct (Nat.ltb_spec j ti); lia|]. destruct (Nat.ltb_spec (pred j) ti); lia. }
        destruct (Nat.ltb_spec j n); [reflexivity|lia]. }
    assert (length KN = n) as HlKN by (unfold KN; rewrite length_set_at; exact HlK).
    assert (outshape (map zlen KN) sg = set_at (map zlen K) ti (zlen m)) as ES.
    { apply nth_error_ext'. intros j. rewrite nth_error_set_at by (rewrite map_length; lia). unfold outshape. rewrite nth_error_map, nth_error_combine, nth_error_seq, !map_length, HlKN.
      rewrite nth_error_map. rewrite KN_at. rewrite nth_error_map.
      destruct (Nat.ltb_spec j n) as [Hj|Hj].
      2: { destruct (Nat.eqb_spec ti j); [lia|]. assert (nth_error K j = None) as -> by (apply nth_error_None; lia). reflexivity. }
      cbn [Nat.add]. destruct (Nat.eqb_spec ti j) as [<-|E].
      - cbn [option_map]. destruct (existsb (Nat.eqb ti) sg) eqn:Ex; [apply existsb_In, Hsg in Ex; tauto|]. now rewrite Hm1.
      - destruct (nth_error K j) eqn:EK; [|apply nth_error_None in EK; lia]. cbn [option_map]. assert (existsb (Nat.eqb j) sg = true) as -> by (apply existsb_In, Hsg; auto). reflexivity. }
    rewrite ES in Ar. destruct Ar as [A1 A2]. split; [exact A1|]. intros p Hp. rewrite A2 by exact Hp. f_equal.
    assert (length p = length K) as Hlp by (pose proof (Forall2_len _ _ _ Hp) as E; rewrite length_set_at, map_length in E; lia).
    unfold M. rewrite <- gather_remove by exact Hlp. f_equal. unfold sg. clear - Hlp HlK. subst n.
    apply nth_error_ext'. intros j. rewrite nth_error_map, !nth_error_remove, nth_error_seq. destruct (Nat.ltb_spec (if Nat.ltb j ti then j else S j) (length A)) as [H|H]; cbn [option_map].
    + cbn [Nat.add]. symmetry. apply nth_error_nth'. lia.
    + symmetry. apply nth_error_None. lia.
Qed.
End Pairs.
End File.
