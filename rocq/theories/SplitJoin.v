(** Reading a variable whose years and days have been joined. *)
From Coq Require Import ZArith List Bool Lia ZifyBool QArith_base Qround.
From Verif Require Import ClimSum WeightProofs CalModel CalSpec CalProofs TimeSearchModel TimeSearchSpec TimeSearchProofs TimeMapProofs TimeDateProofs SortSpec IndexModel IndexSpec IndexProofs ArrModel ArrProofs
  ViewModel ViewSpec ViewProofs AxisModel AxisSpec AxisProofs VarOpsModel VarOpsSpec VarOpsProofs NumModel NumProofs ReduceModel ReduceSpec ArgProofs StencilModel StencilSpec StencilProofs DiffProofs IntgrProofs
  RespondProofs ChunkProofs LoopProofs FlattenProofs LagProofs InterpView SmoothModel SmoothView WindowModel WindowProofs CompositeProofs ConcatModel ConcatProofs ConcatAxis ConcatVar ClimModel ClimSpec ClimAxis ClimChunk ClimView
  MultiFileRead TickMonth SplitModel SplitSpec SplitProofs SplitView.
Import ListNotations.
Open Scope Z_scope.
Notation zlen := IndexSpec.zlen.
Notation znth := ArrModel.znth.

(** *** the place of an element *)
Section Place.
Context {X : Type} (dec : forall a b : X, {a = b} + {a <> b}).
Fixpoint place (l : list X) (x : X) : Z := match l with [] => 0 | y :: l => if dec y x then 0 else 1 + place l x end.
Lemma place_nonneg l x : 0 <= place l x.
Proof. induction l as [|y l IH]; cbn [place]; [lia|]. destruct (dec y x); lia. Qed.
Lemma place_elem l x : In x l -> elem l (place l x) x.
Proof.
  induction l as [|y l IH]; intros H; [destruct H|]. cbn [place]. destruct (dec y x) as [->|Hn]; [split; [lia|reflexivity]|]. destruct H as [->|H]; [congruence|]. destruct (IH H) as [H1 H2].
  pose proof (place_nonneg l x). split; [lia|]. replace (Z.to_nat (1 + place l x)) with (S (Z.to_nat (place l x))) by lia. exact H2.
Qed.
Lemma elem_once (l : list X) i j x : NoDup l -> elem l i x -> elem l j x -> i = j.
Proof. intros Hn [Hi Ei] [Hj Ej]. assert (Z.to_nat i = Z.to_nat j); [|lia]. apply (proj1 (NoDup_nth_error l) Hn); [apply nth_error_Some; congruence|congruence]. Qed.
Lemma place_of l x i : NoDup l -> elem l i x -> place l x = i.
Proof. intros Hn He. apply (elem_once l _ _ x Hn); [|exact He]. apply place_elem. eapply elem_In, He. Qed.
Lemma place_range l x : In x l -> 0 <= place l x < zlen l.
Proof. intros H. apply place_elem in H. eapply elem_range, H. Qed.
End Place.

(** *** reading a variable through axes that correspond to its own, one by one *)
Lemma get_aligned env (Henv : env_ok env) (junk : list Z -> num) x D B L M : responds env x D -> length B = length (var_axes x) -> length L = length B -> Forall2 choice (var_axes x) M ->
  (forall j a l, nth_error (var_axes x) j = Some a -> nth_error M j = Some l -> mapped (axis_ops env) (view_of_inds B L) a (j, l)) ->
  exists r, ViewModel.get (axis_ops env) junk (view_of_inds B L) x true true = Some r /\ array_is r (map zlen L) (fun p => D (gather M p)).
Proof.
  intros Hx HB HL HC Hm. pose proof (Forall2_len _ _ _ HC) as HlM. set (n := length (var_axes x)) in *.
  assert (length (seq 0 n) = length M) as Hsl' by (rewrite seq_length; lia).
  assert (map fst (combine (seq 0 n) M) = seq 0 n) as E1 by (apply map_fst_combine; exact Hsl').
  assert (map snd (combine (seq 0 n) M) = M) as E2 by (apply map_snd_combine'; exact Hsl').
  destruct (get_fetch (axis_ops env) junk B L x D (combine (seq 0 n) M)) as (r & Er & Ar).
  - exact HL.
  - rewrite E2. exact (fetch_any env junk x D M Hx HC).
  - apply Forall2_intro_nth; [rewrite combine_length_eq by exact Hsl'; rewrite seq_length; reflexivity|]. intros j b [i l] Hbj Hl.
    rewrite nth_error_combine, nth_error_seq in Hl. destruct (Nat.ltb j n) eqn:El; [|discriminate]. destruct (nth_error M j) as [l'|] eqn:EM; [|discriminate]. injection Hl as <- <-. exact (Hm j b l' Hbj EM).
  - rewrite E1. apply seq_NoDup.
  - rewrite E2. apply Forall_forall. intros l Hl. destruct (In_nth_error _ _ Hl) as [j Hj].
    destruct (nth_error (var_axes x) j) as [b|] eqn:Eb; [exact (choice_ne _ _ (Forall2_nth_error _ _ _ _ _ _ HC Eb Hj))|].
    apply nth_error_None in Eb. assert (j < length M)%nat by (apply nth_error_Some; congruence). fold n in Eb. lia.
  - exists r. split; [exact Er|]. rewrite E1, E2 in Ar.
    rewrite outshape_full in Ar by (intros i Hi; apply in_seq; rewrite map_length in Hi; lia).
    destruct Ar as [A1 A2]. split; [exact A1|]. intros p Hp. rewrite A2 by exact Hp. f_equal.
    assert (length p = length M) as Hlp by (pose proof (Forall2_len _ _ _ Hp) as E; rewrite map_length in E; lia).
    replace n with (length M) by lia. rewrite gather_nth_seq by exact Hlp. reflexivity.
Qed.

(** a time axis of a view that has the same times as (a part of) a variable's one *)
Lemma time_mapped_any env (Henv : env_ok env) B L i c b l ind : Forall2 (fun a l => in_range (axis_len a) l) B L -> nth_error B i = Some (Time b) -> nth_error L i = Some l ->
  good_axis (Time c) -> good_axis (Time b) -> t_class b = t_class c -> t_mask b = t_mask c -> in_range (zlen (t_dates c)) ind -> zlen ind = zlen l ->
  pick [] (records (t_mask c) b) l = pick [] (records (t_mask c) c) ind -> (forall j a, j <> i -> nth_error B j = Some a -> unrelated (Time c) a) ->
  mapped (axis_ops env) (view_of_inds B L) (Time c) (i, ind).
Proof.
  intros HBL Hb Hl Gc Gb Hcls Hmask Hind Hz Hpick Hun. pose proof (Forall2_len _ _ _ HBL) as HlBL. pose proof (Forall2_nth_error _ _ _ _ _ _ HBL Hb Hl) as Hbr. cbv beta in Hbr.
  assert (Forall (fun i => 0 <= i) ind) as Hpos by (eapply Forall_impl; [|exact Hind]; cbn; intros; lia).
  assert (nth i (vinds (view_of_inds B L)) [] = l) as EN by (apply nth_error_nth; exact Hl).
  split; [|split; [exact Hind|split; [cbn; apply nth_error_Some; congruence|cbn [snd fst]; rewrite EN; exact Hz]]].
  cbn [fst snd]. unfold map_axis.
  destruct (axis_same (Time c) (Time b)) eqn:Es.
  - assert (find_first (fun a => if same (axis_ops env) (Time c) a then Some tt else None) (vaxes (view_of_inds B L)) = Some (i, tt)) as ->.
    { apply (find_first_at _ _ _ (Time b)); [exact Hb|cbn [same axis_ops]; now rewrite Es|].
      intros k y Hk Hy. cbn [same axis_ops]. rewrite (unrelated_same (Time c) y); [reflexivity|]. apply (Hun k); [lia|exact Hy]. }
    exists (nth i (vslices (view_of_inds B L)) (SList [])). split; [reflexivity|]. cbn [vslices view_of_inds].
    rewrite (nth_simplify L i l) by exact Hl.
    assert (records (t_mask c) c = records (t_mask c) b) as ER.
    { cbn [axis_same] in Es. unfold time_eq in Es. rewrite !andb_true_iff in Es. destruct Es as [[[_ _] EL] EF]. apply Nat.eqb_eq in EL.
      destruct Gb as (_ & _ & _ & _ & _ & Gr). rewrite Hmask in Gr.
      assert (length (records (t_mask c) c) = length (records (t_mask c) b)) as EL' by (unfold records; now rewrite !map_length).
      apply list_ext_len; [unfold IndexSpec.zlen; now rewrite EL'|]. intros k x y Hx Hy. apply rows_eq.
      - destruct Hx as [_ Hx], Hy as [_ Hy]. unfold records in Hx, Hy. apply nth_error_In in Hx, Hy. apply in_map_iff in Hx as (? & <- & _), Hy as (? & <- & _). now rewrite !project_len.
      - apply (proj1 (Forall_forall _ _) Gr). eapply elem_In. exact Hy.
      - exact (Forall2_forallb (fun r s => forallb (fun '(x, y) => zclose x y) (combine r s)) _ _ EF k x y Hx Hy). }
    assert (ind = l) as Eil.
    { rewrite <- ER in Hpick. destruct Gc as (_ & _ & _ & _ & Gn & _). apply list_ext_len; [exact Hz|]. intros k x y Hx Hy.
      assert (elem (pick [] (records (t_mask c) c) ind) k (nth (Z.to_nat x) (records (t_mask c) c) [])) as P1 by (unfold pick; apply elem_map; exists x; split; [exact Hx|reflexivity]).
      assert (elem (pick [] (records (t_mask c) c) l) k (nth (Z.to_nat y) (records (t_mask c) c) [])) as P2 by (unfold pick; apply elem_map; exists y; split; [exact Hy|reflexivity]).
      rewrite Hpick in P2. destruct P1 as [_ P1], P2 as [_ P2]. rewrite P1 in P2. injection P2 as P2.
      pose proof (proj1 (Forall_forall _ _) Hind x (elem_In _ _ _ Hx)) as Bx. pose proof (proj1 (Forall_forall _ _) Hbr y (elem_In _ _ _ Hy)) as By. cbv beta in Bx, By. cbn [axis_len] in By.
      assert (length (t_dates b) = length (t_dates c)) as Hlen by (apply (f_equal (@length _)) in ER; unfold records in ER; rewrite !map_length in ER; lia).
      assert (Z.to_nat x = Z.to_nat y) as E; [|lia]. apply (proj1 (NoDup_nth _ []) Gn); [unfold records; rewrite map_length; unfold IndexSpec.zlen in Bx; lia|unfold records; rewrite map_length; unfold IndexSpec.zlen in By; lia|exact P2]. }
    rewrite Eil. apply expand_simplify. rewrite <- Eil. exact Hpos.
  - assert (find_first (fun a => if same (axis_ops env) (Time c) a then Some tt else None) (vaxes (view_of_inds B L)) = None) as ->.
    { apply find_first_none. intros y Hy. cbn [vaxes view_of_inds] in Hy. apply In_nth_error in Hy as [k Hy]. cbn [same axis_ops]. destruct (Nat.eq_dec k i) as [E|E].
      - subst k. rewrite Hb in Hy. injection Hy as <-. now rewrite Es.
      - rewrite (unrelated_same _ _ (Hun k y E Hy)). reflexivity. }
    rewrite (subaxes_eq env B L) by exact HBL.
    assert (axis_map_to env (Time c) (axis_take env (Time b) l) = Some ind) as EM.
    { pose proof (sliced_self env Henv (Time b) l Gb Hbr) as Hss. pose proof (take_time env (Time b) l) as Htt.
      destruct (axis_take env (Time b) l) as [| |s]; try (destruct Htt; fail). destruct Hss as (E1 & E2 & E3 & E4 & E5 & E6 & E7).
      destruct (time_axis_map_to env Henv c s Gc) as (ind' & E & M); [congruence|rewrite E5, Hmask; apply mask_sub_refl|]. rewrite E. f_equal.
      rewrite E6, project_pick in M by exact Hbr. fold (records (t_mask c) b) in M. rewrite Hpick in M. destruct Gc as (_ & _ & _ & _ & Gn & _).
      apply (mapped_exact (records (t_mask c) c) ind ind' Gn); [unfold records, IndexSpec.zlen in *; rewrite map_length; exact Hind|exact M]. }
    assert (find_first (mapto (axis_ops env) (Time c)) (map (fun '(a, l) => axis_take env a l) (combine B L)) = Some (i, ind)) as ->.
    { apply (find_first_at _ _ _ (axis_take env (Time b) l)).
      - rewrite nth_error_map, nth_error_combine, Hb, Hl. reflexivity.
      - exact EM.
      - intros k y Hk Hy. rewrite nth_error_map, nth_error_combine in Hy. destruct (nth_error B k) as [a|] eqn:Ea; [|discriminate]. destruct (nth_error L k) as [l'|] eqn:El; [|discriminate]. injection Hy as <-.
        cbn [mapto axis_ops]. apply unrelated_map. apply take_unrelated. apply (Hun k a); [lia|exact Ea]. }
    exists (simplify ind). split; [reflexivity|]. apply expand_simplify. exact Hpos.
Qed.

Lemma transpose_same {V} (a : arr V) s F : array_is a s F -> exists c, transpose a (seq 0 (length (shape a))) = Some c /\ array_is c s F.
Proof.
  intros [Hs Hv]. unfold transpose. assert (is_perm (length (shape a)) (seq 0 (length (shape a))) = true) as ->.
  { unfold is_perm. rewrite seq_length, Nat.eqb_refl. cbn [andb]. apply forallb_forall. intros j Hj. apply existsb_exists. exists j. split; [exact Hj|apply Nat.eqb_refl]. }
  eexists. split; [reflexivity|]. split.
  - cbn [shape]. rewrite Hs. apply nth_error_ext'. intros i. rewrite nth_error_map, nth_error_seq. destruct (Nat.ltb_spec i (length s)) as [Hi|Hi]; cbn [option_map].
    + cbn [Nat.add]. symmetry. apply nth_error_nth'. exact Hi.
    + symmetry. now apply nth_error_None.
  - intros p Hp. cbn [val]. rewrite <- (Hv p Hp). f_equal. pose proof (Forall2_len _ _ _ Hp) as Hl. rewrite Hs, Hl.
    assert (forall n k m, (m < n)%nat -> index_of (k + m) (seq k n) = m) as K.
    { clear. induction n as [|n IH]; intros k m Hm; [lia|]. cbn [seq index_of]. destruct (Nat.eqb_spec k (k + m)) as [E|E]; [lia|]. destruct m as [|m]; [lia|]. f_equal. replace (k + S m)%nat with (S k + m)%nat by lia. apply IH. lia. }
    apply nth_error_ext'. intros i. rewrite nth_error_map, nth_error_seq. destruct (Nat.ltb_spec i (length p)) as [Hi|Hi]; cbn [option_map].
    + rewrite (K (length p) 0%nat i Hi). symmetry. apply nth_error_nth'. exact Hi.
    + symmetry. now apply nth_error_None.
Qed.

Lemma replace_whole env axes L d a : Forall2 (fun a l => in_range (axis_len a) l) axes L -> (d < length axes)%nat ->
  replace_axis env (view_of_inds axes L) d a whole = Some (view_of_inds (set_at axes d a) (set_at L d (arange 0 (axis_len a) 1))).
Proof.
  intros H Hd. unfold replace_axis. cbn [vaxes vslices view_of_inds]. apply slices_inds; [apply Forall2_set_both; [exact H|apply range_arange]|].
  revert d Hd. induction H as [|b m axes L Hb H IH]; intros [|d] Hd; cbn in Hd; try lia; cbn [set_at map combine].
  - constructor; [reflexivity|]. clear IH Hd. induction H as [|b' m' axes L Hb' H IH]; constructor; [|exact IH]. apply expand_simplify. eapply Forall_impl; [|exact Hb']; cbn; lia.
  - constructor; [apply expand_simplify; eapply Forall_impl; [|exact Hb]; cbn; lia|]. apply IH. lia.
Qed.

(** *** the joined axis *)
Lemma grid_records (k : mask) zs ds : NoDup zs -> NoDup (map (project (without_year k)) ds) -> NoDup (map (project (with_years k)) (grid zs ds in_year)).
Proof.
  revert zs. induction zs as [|y zs IH]; intros Hy Hd; [constructor|]. inversion Hy as [|? ? Hn Hy']. unfold grid. cbn [map List.concat]. rewrite map_app, map_map. apply NoDup_app2; [|apply (IH Hy' Hd)|].
  - rewrite (map_ext (fun d => project (with_years k) (in_year y d)) (fun d => y :: project (without_year k) d)) by (intros; reflexivity). rewrite <- (map_map (project (without_year k)) (cons y)). apply FinFun.Injective_map_NoDup; [|exact Hd]. intros a b E. congruence.
  - intros z Hz Hz'. apply in_map_iff in Hz as (w & <- & Hw). apply in_map_iff in Hz' as (d' & Ex & Hd'). apply in_concat in Hd' as (ll & Hl & Hd'). apply in_map_iff in Hl as (y' & <- & Hy''). apply in_map_iff in Hd' as (d & <- & Hd').
    rewrite !project_in_year in Ex. congruence.
Qed.
Lemma without_none k : my k = false -> without_year k = k.
Proof. destruct k; cbn. intros ->. reflexivity. Qed.
Lemma grid_In {X Y} (ys : list Y) (ds : list X) (g : Y -> X -> X) z : In z (grid ys ds g) <-> exists y d, In y ys /\ In d ds /\ z = g y d.
Proof.
  unfold grid. split.
  - intros H. apply in_concat in H as (l & H1 & H2). apply in_map_iff in H1 as (y & <- & Hy). apply in_map_iff in H2 as (d & <- & Hd). eauto.
  - intros (y & d & Hy & Hd & ->). apply in_concat. exists (map (g y) ds). split; [apply in_map_iff; eauto|now apply in_map].
Qed.
Lemma joined_good ys days u : NoDup ys -> Forall (fun y => -99998 <= y <= 99998) ys -> good_axis (Time days) -> my (t_mask days) = false -> t_cal days <> Yearless ->
  jointime (map inject_Z ys) days = Some u -> Forall (valid_date (t_cal days)) (t_dates u) ->
  good_axis (Time u) /\ t_class u = t_class days /\ t_cal u = t_cal days /\ t_mask u = with_years (t_mask days) /\ t_dates u = grid ys (t_dates days) in_year.
Proof.
  intros Hn Hb Gd Hy Hc Eu Hv. pose proof Gd as (D1 & D2 & D3 & D4 & D5 & D6).
  destruct (jointime_spec (map inject_Z ys) days) as (u' & Eu' & U1 & U2 & U3 & U4 & U5 & U6 & U7).
  - intros E. destruct ys; [discriminate Eu|discriminate E].
  - intros E. unfold jointime in Eu. rewrite E in Eu. assert (forall l : list Q, List.concat (map (fun y => map (in_year (Qfloor y)) []) l) = []) as K by (induction l; [reflexivity|exact IHl]). rewrite K in Eu. discriminate.
  - exact Hc.
  - eapply Forall_impl; [|exact D2]. intros d. apply valid_months. exact Hc.
  - rewrite Eu in Eu'. injection Eu' as <-. rewrite map_map, (map_ext (fun x => Qfloor (inject_Z x)) (fun x => x) Qfloor_Z), map_id in U5. split; [|repeat split; assumption].
    split; [exact U6|]. split; [rewrite U2; exact Hv|]. split; [rewrite U4; discriminate|]. split; [exact U7|]. unfold records. rewrite U4, U5. split.
    + apply grid_records; [exact Hn|]. rewrite without_none by exact Hy. exact D5.
    + apply Forall_map. apply Forall_forall. intros z Hz. apply grid_In in Hz as (y & d & Hy' & Hd & ->). rewrite project_in_year. constructor; [exact (proj1 (Forall_forall _ _) Hb y Hy')|].
      rewrite without_none by exact Hy. apply (proj1 (Forall_forall _ _) D6). unfold records. now apply in_map.
Qed.

Lemma within {X} (l : list X) i : 0 <= i < zlen l -> (Z.to_nat i < length l)%nat.
Proof. unfold IndexSpec.zlen. lia. Qed.
Lemma record_date k a i : 0 <= i < zlen (t_dates a) -> record_of k a i = project k (date_at a i).
Proof. intros Hi. unfold record_of, records, date_at. rewrite (nth_indep _ [] (project k date0)) by (rewrite map_length; unfold IndexSpec.zlen in Hi; lia). apply map_nth. Qed.
Lemma project_other k y d : my k = false -> project k (in_year y d) = project k d.
Proof. destruct k; cbn. intros ->. reflexivity. Qed.
Lemma masked_in_year k y d : in_year y (get_dates (mask_date k d)) = get_dates (mask_date (with_years k) (in_year y d)).
Proof. destruct k as [[] [] [] [] [] []], d; reflexivity. Qed.
Lemma modify_masked lexsort t k u : lexsort_ok lexsort -> some_field k -> modify lexsort t k = Some u -> Forall (fun d => d = get_dates (mask_date k d)) (t_dates u).
Proof.
  intros Hlex Hk E. unfold modify in E. rewrite (proj2 (some_no_field k) Hk) in E. destruct (sorted_rows lexsort Hlex (nf k) (records k t) (project_table _ _)) as (s & Es & Ss & Hp).
  destruct (py_uniquify_spec (nf k) (lexsort (records k t)) (records k t) s (nf_pos _ Hk) (project_table _ _) Hp Es Ss) as (rows & E1 & Hinc & Hin). rewrite E1 in E. cbn [bind] in E.
  destruct (sequence _) as [vals|]; [|discriminate]. cbn [bind] in E. injection E as <-. cbn [t_dates]. apply Forall_map, Forall_forall. intros r Hr. apply Hin in Hr. apply in_map_iff in Hr as (d & <- & Hd).
  rewrite date_of_project. destruct k as [[] [] [] [] [] []], d; reflexivity.
Qed.
Section JoinView.
Context (env : axenv) (Henv : env_ok env) (lexsort : list (list Z) -> list Z) (Hlex : lexsort_ok lexsort) (junk : list Z -> num) (named : list Z) (year_name : Z).
Notation var := (ViewModel.var axis num).
Notation year_axis := (year_axis env named year_name).
Context (x : var) (D : list Z -> num) (Hx : responds env x D) (yi : nat) (l : list Z) (Hl : NoDup l) (Hlb : Forall (fun y => -99998 <= y <= 99998) l)
        (d0 : taxis) (Gd : good_axis (Time d0)) (Hyear : my (t_mask d0) = false) (Hcal : t_cal d0 <> Yearless)
        (Hy : nth_error (var_axes x) yi = Some (year_axis l)) (Hd : nth_error (var_axes x) (S yi) = Some (Time d0))
        (Honly : forall i s, nth_error (var_axes x) i = Some (Time s) -> i = S yi)
        (T : taxis) (HT : jointime (map inject_Z l) d0 = Some T) (Hvalid : Forall (valid_date (t_cal d0)) (t_dates T)).
Notation A := (var_axes x).
Notation k := (t_mask d0).
Notation nd := (zlen (t_dates d0)).
Definition joined_axes : list axis := set_at (remove_at A (S yi)) yi (Time T).
Notation N := joined_axes.

Lemma T_facts : good_axis (Time T) /\ t_class T = t_class d0 /\ t_cal T = t_cal d0 /\ t_mask T = with_years k /\ t_dates T = grid l (t_dates d0) in_year.
Proof. exact (joined_good l d0 T Hl Hlb Gd Hyear Hcal HT Hvalid). Qed.
Lemma lenA : (S yi < length A)%nat.
Proof. apply nth_error_Some. congruence. Qed.
Lemma N_length : length N = (length A - 1)%nat.
Proof. unfold N. rewrite length_set_at, length_remove_at; pose proof lenA; lia. Qed.
Lemma N_nth j : nth_error N j = if Nat.ltb j yi then nth_error A j else if Nat.eqb j yi then Some (Time T) else nth_error A (S j).
Proof.
  unfold N. rewrite nth_error_set_at by (rewrite length_remove_at; pose proof lenA; lia). rewrite nth_error_remove.
  destruct (Nat.eqb_spec yi j) as [->|E].
  - destruct (Nat.ltb_spec j j); [lia|]. rewrite Nat.eqb_refl. reflexivity.
  - destruct (Nat.ltb_spec j yi); [destruct (Nat.ltb_spec j (S yi)); [reflexivity|lia]|]. destruct (Nat.eqb_spec j yi); [congruence|]. destruct (Nat.ltb_spec j (S yi)); [lia|reflexivity].
Qed.
Lemma T_date i : 0 <= i < zlen (t_dates T) -> 0 <= i / nd < zlen l /\ 0 <= i mod nd < nd /\ date_at T i = in_year (znth l (i / nd)) (date_at d0 (i mod nd)).
Proof.
  intros Hi. destruct T_facts as (_ & _ & _ & _ & ET). rewrite ET, grid_len in Hi. pose proof (zlen_nonneg l). pose proof (zlen_nonneg (t_dates d0)). assert (0 < nd) as Hnd by nia.
  pose proof (Z.mod_pos_bound i nd Hnd) as Hm. pose proof (Z.div_mod i nd ltac:(lia)) as E. assert (0 <= i / nd < zlen l) as Hdv by (split; [apply Z.div_pos; lia|apply Z.div_lt_upper_bound; lia]).
  split; [exact Hdv|]. split; [exact Hm|]. unfold date_at. rewrite ET. apply (nth_error_nth _ _ date0).
  assert (elem (grid l (t_dates d0) in_year) ((i / nd) * nd + i mod nd) (in_year (znth l (i / nd)) (nth (Z.to_nat (i mod nd)) (t_dates d0) date0))) as He.
  { apply grid_elem; [apply elem_znth; exact Hdv|]. split; [lia|]. apply nth_error_nth'. apply Nat2Z.inj_lt. change (Z.of_nat (length (t_dates d0))) with nd. rewrite Z2Nat.id; lia. }
  destruct He as [_ He]. replace ((i / nd) * nd + i mod nd) with i in He by lia. exact He.
Qed.

Context (K : list (list Z)) (HK : Forall2 selection N K).
Notation Kt := (nth yi K []).
Notation s := (map zlen K).
Lemma lenK : length K = length N.
Proof. symmetry. exact (Forall2_len _ _ _ HK). Qed.
Lemma Kt_nth : nth_error K yi = Some Kt.
Proof. apply nth_error_nth'. rewrite lenK, N_length. pose proof lenA. lia. Qed.
Lemma N_yi : nth_error N yi = Some (Time T).
Proof. rewrite N_nth. destruct (Nat.ltb_spec yi yi); [lia|]. now rewrite Nat.eqb_refl. Qed.
Lemma Kt_sel : Kt <> [] /\ in_range (zlen (t_dates T)) Kt /\ increasing Kt.
Proof. exact (Forall2_nth_error _ _ _ _ _ _ HK N_yi Kt_nth). Qed.

Context (times : taxis) (Htimes : axis_take env (Time T) Kt = Time times).
Lemma times_sliced : sliced (Time T) Kt (Time times).
Proof. rewrite <- Htimes. apply (sliced_self env Henv); [apply T_facts|apply Kt_sel]. Qed.
Lemma times_fine : good_axis (Time times).
Proof. apply (sliced_good (Time T) Kt); [apply T_facts|apply Kt_sel|apply increasing_NoDup, Kt_sel|apply times_sliced]. Qed.
Lemma times_is : t_class times = t_class d0 /\ t_cal times = t_cal d0 /\ t_mask times = with_years k /\ t_dates times = pick date0 (t_dates T) Kt.
Proof. destruct times_sliced as (S1 & S2 & S3 & S4 & S5 & S6 & S7). destruct T_facts as (_ & E1 & E2 & E3 & _). repeat split; congruence. Qed.
Lemma times_date i : 0 <= i < zlen Kt -> let j := znth Kt i in 0 <= i < zlen (t_dates times) /\ 0 <= j / nd < zlen l /\ 0 <= j mod nd < nd /\ date_at times i = in_year (znth l (j / nd)) (date_at d0 (j mod nd)).
Proof.
  intros Hi j. destruct times_is as (_ & _ & _ & E). destruct Kt_sel as (_ & Hr & _). assert (elem Kt i j) as Hj by (apply elem_znth; exact Hi).
  pose proof (proj1 (Forall_forall _ _) Hr j (elem_In _ _ _ Hj)) as Bj. cbv beta in Bj. destruct (T_date j Bj) as (B1 & B2 & B3).
  split; [rewrite E; unfold pick, IndexSpec.zlen in *; rewrite map_length; exact Hi|]. split; [exact B1|]. split; [exact B2|]. rewrite <- B3. unfold date_at. rewrite E. apply (nth_error_nth _ _ date0). unfold pick.
  destruct Hj as [_ Hj]. rewrite nth_error_map, Hj. reflexivity.
Qed.
Lemma times_len : zlen (t_dates times) = zlen Kt.
Proof. destruct times_is as (_ & _ & _ & E). rewrite E. unfold pick, IndexSpec.zlen. now rewrite map_length. Qed.

(** the years and days of the chosen times *)
Definition ys : list Z := np_unique (map year (t_dates times)).
Context (days : taxis) (Gdays : good_axis (Time days)) (Hdays : groups k times days).
Lemma ys_In y : In y ys <-> exists i, 0 <= i < zlen Kt /\ y = znth l (znth Kt i / nd).
Proof.
  unfold ys. rewrite unique_In. split.
  - intros H. apply in_map_iff in H as (d & <- & H). apply In_elem in H as (i & Hi). pose proof (elem_range _ _ _ Hi) as B. rewrite times_len in B. exists i. split; [exact B|].
    destruct (times_date i B) as (_ & _ & _ & E). unfold date_at in E at 1. rewrite (nth_error_nth _ _ date0 (proj2 Hi)) in E. rewrite E. reflexivity.
  - intros (i & Hi & ->). destruct (times_date i Hi) as (B & _ & _ & E). apply in_map_iff. exists (date_at times i). split; [rewrite E; reflexivity|]. unfold date_at. apply nth_In; apply within; exact B.
Qed.
Lemma ys_sub y : In y ys -> In y l.
Proof. intros H. apply ys_In in H as (i & Hi & ->). destruct (times_date i Hi) as (_ & B & _). eapply elem_In, elem_znth, B. Qed.
Lemma ys_NoDup : NoDup ys.
Proof. apply increasing_NoDup, sorted_increasing, unique_sorted. Qed.
Lemma ys_bound : Forall (fun y => -99998 <= y <= 99998) ys.
Proof. apply Forall_forall. intros y H. apply (proj1 (Forall_forall _ _) Hlb). now apply ys_sub. Qed.
Lemma days_In r : In r (records k days) <-> exists i, 0 <= i < zlen Kt /\ r = record_of k d0 (znth Kt i mod nd).
Proof.
  destruct Hdays as (_ & _ & _ & _ & H5). rewrite H5. unfold records at 1. split.
  - intros H. apply in_map_iff in H as (d & <- & H). apply In_elem in H as (i & Hi). pose proof (elem_range _ _ _ Hi) as B. rewrite times_len in B. exists i. split; [exact B|].
    destruct (times_date i B) as (_ & _ & B2 & E). unfold date_at in E at 1. rewrite (nth_error_nth _ _ date0 (proj2 Hi)) in E. rewrite E, record_date by exact B2. apply project_other. exact Hyear.
  - intros (i & Hi & ->). destruct (times_date i Hi) as (B & _ & B2 & E). apply in_map_iff. exists (date_at times i). split; [|unfold date_at; apply nth_In; apply within; exact B].
    rewrite E, record_date by exact B2. apply project_other. exact Hyear.
Qed.
Lemma days_sub r : In r (records k days) -> In r (records k d0).
Proof. intros H. apply days_In in H as (i & Hi & ->). destruct (times_date i Hi) as (_ & _ & B & _). unfold record_of. apply nth_In. unfold records. rewrite map_length. apply within. exact B. Qed.
Context (Hmasked : Forall (fun d => d = get_dates (mask_date k d)) (t_dates days)).

Notation py := (place Z.eq_dec l).
Notation pd := (place (list_eq_dec Z.eq_dec) (records k d0)).
Definition iy : list Z := map py ys.
Definition id_ : list Z := map pd (records k days).
Lemma d0_NoDup : NoDup (records k d0).
Proof. destruct Gd as (_ & _ & _ & _ & H & _). exact H. Qed.
Lemma days_NoDup : NoDup (records k days).
Proof. destruct Hdays as (_ & _ & E & _). destruct Gdays as (_ & _ & _ & _ & H & _). rewrite E in H. exact H. Qed.
Lemma zlen_rec a : zlen (records k a) = zlen (t_dates a).
Proof. unfold records, IndexSpec.zlen. now rewrite map_length. Qed.
Lemma iy_range : in_range (zlen l) iy.
Proof. apply Forall_map, Forall_forall. intros y H. apply place_range. now apply ys_sub. Qed.
Lemma id_range : in_range nd id_.
Proof. apply Forall_map, Forall_forall. intros r H. rewrite <- zlen_rec. apply place_range. now apply days_sub. Qed.
Lemma iy_NoDup : NoDup iy.
Proof.
  apply NoDup_map_in; [|exact ys_NoDup]. intros a b Ha Hb E. pose proof (place_elem Z.eq_dec l a (ys_sub a Ha)) as [_ E1]. pose proof (place_elem Z.eq_dec l b (ys_sub b Hb)) as [_ E2]. congruence.
Qed.
Lemma id_NoDup : NoDup id_.
Proof.
  apply NoDup_map_in; [|exact days_NoDup]. intros a b Ha Hb E. pose proof (place_elem (list_eq_dec Z.eq_dec) _ a (days_sub a Ha)) as [_ E1]. pose proof (place_elem (list_eq_dec Z.eq_dec) _ b (days_sub b Hb)) as [_ E2]. congruence.
Qed.
Lemma Kt_pos : 0 < zlen Kt.
Proof. destruct Kt_sel as (H & _). pose proof (zlen_nonneg Kt). destruct (Z.eq_dec (zlen Kt) 0) as [E|E]; [|lia]. exfalso. apply H. destruct Kt; [reflexivity|]. unfold IndexSpec.zlen in E. cbn in E. lia. Qed.
Lemma ys_ne : ys <> [].
Proof. pose proof Kt_pos. intros E. assert (In (znth l (znth Kt 0 / nd)) ys) as H' by (apply ys_In; exists 0; split; [lia|reflexivity]). rewrite E in H'. exact H'. Qed.
Lemma days_ne : t_dates days <> [].
Proof. pose proof Kt_pos. intros E. assert (In (record_of k d0 (znth Kt 0 mod nd)) (records k days)) as H' by (apply days_In; exists 0; split; [lia|reflexivity]). unfold records in H'. rewrite E in H'. exact H'. Qed.

(** all combinations of those years and days exist *)
Lemma uber_spec : exists u, jointime (map inject_Z ys) days = Some u /\ good_axis (Time u) /\ t_class u = t_class d0 /\ t_mask u = with_years k /\ t_dates u = grid ys (t_dates days) in_year.
Proof.
  pose proof Hdays as (E1 & E2 & E3 & _). destruct times_is as (T1 & T2 & T3 & T4). pose proof Gdays as (_ & Gv & _).
  destruct (jointime_spec (map inject_Z ys) days) as (u & Eu & U1 & U2 & U3 & U4 & U5 & U6 & U7).
  - intros E. apply map_eq_nil in E. exact (ys_ne E).
  - exact days_ne.
  - rewrite E2, T2. exact Hcal.
  - eapply Forall_impl; [|exact Gv]. intros d. apply valid_months. rewrite E2, T2. exact Hcal.
  - exists u. split; [exact Eu|]. rewrite map_map, (map_ext (fun x => Qfloor (inject_Z x)) (fun x => x) Qfloor_Z), map_id in U5.
    destruct (joined_good ys days u ys_NoDup ys_bound Gdays) as (G & C1 & C2 & C3 & C4); [rewrite E3; exact Hyear|rewrite E2, T2; exact Hcal|exact Eu| |].
    + rewrite U5. apply Forall_forall. intros z Hz. apply grid_In in Hz as (y & d & Hy' & Hd' & ->). rewrite E2, T2.
      assert (In (project k d) (records k d0)) as Hr by (apply days_sub; unfold records; now apply in_map). unfold records in Hr. apply in_map_iff in Hr as (e & Ee & He).
      assert (d = get_dates (mask_date k e)) as ->. { rewrite (proj1 (Forall_forall _ _) Hmasked d Hd'), <- !date_of_project, Ee. reflexivity. }
      rewrite masked_in_year. apply masked_valid. apply (proj1 (Forall_forall _ _) Hvalid). destruct T_facts as (_ & _ & _ & _ & ->). apply grid_In. exists y, e. split; [now apply ys_sub|]. split; [exact He|reflexivity].
    + split; [exact G|]. split; [congruence|]. split; [congruence|exact C4].
Qed.
(** where the chosen times are among those combinations *)
Definition among (i : Z) : Z := let j := znth Kt i in place Z.eq_dec ys (znth l (j / nd)) * zlen (t_dates days) + place (list_eq_dec Z.eq_dec) (records k days) (record_of k d0 (j mod nd)).
Lemma among_spec i : 0 <= i < zlen Kt -> let a := place Z.eq_dec ys (znth l (znth Kt i / nd)) in let b := place (list_eq_dec Z.eq_dec) (records k days) (record_of k d0 (znth Kt i mod nd)) in
  0 <= a < zlen ys /\ 0 <= b < zlen (t_dates days) /\ znth iy a = znth Kt i / nd /\ znth id_ b = znth Kt i mod nd.
Proof.
  intros Hi a b. destruct (times_date i Hi) as (_ & B1 & B2 & _). assert (In (znth l (znth Kt i / nd)) ys) as H1 by (apply ys_In; exists i; auto). assert (In (record_of k d0 (znth Kt i mod nd)) (records k days)) as H2 by (apply days_In; exists i; auto).
  split; [apply place_range; exact H1|]. split; [rewrite <- zlen_rec; apply place_range; exact H2|]. split.
  - apply znth_elem. unfold iy. apply elem_map. exists (znth l (znth Kt i / nd)). split; [apply place_elem; exact H1|]. symmetry. apply place_of; [exact Hl|]. apply elem_znth. exact B1.
  - apply znth_elem. unfold id_. apply elem_map. exists (record_of k d0 (znth Kt i mod nd)). split; [apply place_elem; exact H2|]. symmetry. apply place_of; [exact d0_NoDup|]. split; [lia|]. unfold record_of. apply nth_error_nth'. unfold records. rewrite map_length. apply within. exact B2.
Qed.
Lemma among_range i : 0 <= i < zlen Kt -> 0 <= among i < zlen ys * zlen (t_dates days).
Proof. intros Hi. destruct (among_spec i Hi) as (H1 & H2 & _). unfold among. nia. Qed.
Definition ind : list Z := map among (arange 0 (zlen Kt) 1).
Lemma ind_range : in_range (zlen ys * zlen (t_dates days)) ind.
Proof. apply Forall_map, Forall_forall. intros i Hi. apply In_arange1 in Hi. now apply among_range. Qed.
Lemma ind_len : zlen ind = zlen Kt.
Proof. unfold ind. rewrite zlen_map. apply zlen_arange, zlen_nonneg. Qed.

Lemma uber_map u : good_axis (Time u) -> t_class u = t_class d0 -> t_mask u = with_years k -> t_dates u = grid ys (t_dates days) in_year -> axis_map_to env (Time u) (Time times) = Some ind.
Proof.
  intros Gu Uc Um Ud. destruct times_is as (T1 & T2 & T3 & T4). destruct (time_axis_map_to env Henv u times Gu) as (ind' & E & M); [congruence|rewrite Um, T3; apply mask_sub_refl|].
  rewrite E. f_equal. pose proof Gu as (_ & _ & _ & _ & Gn & _). apply (mapped_exact (records (t_mask u) u) ind ind' Gn).
  - unfold records. rewrite zlen_map, Ud, grid_len. exact ind_range.
  - assert (map (project (t_mask u)) (t_dates times) = pick [] (records (t_mask u) u) ind) as <-; [|exact M].
    apply list_ext_len; [unfold pick; rewrite !zlen_map, times_len, ind_len; reflexivity|]. intros i r r' Hr Hr'. apply elem_map in Hr as (d & Hi & ->). pose proof (elem_range _ _ _ Hi) as B. rewrite times_len in B.
    unfold pick in Hr'. apply elem_map in Hr' as (j & Hj & ->). unfold ind in Hj. apply elem_map in Hj as (i' & Hi' & ->). apply elem_arange01 in Hi' as [Ei _]. assert (i' = i) as -> by lia. clear Ei.
    destruct (times_date i B) as (B0 & B1 & B2 & Ed). unfold date_at in Ed at 1. rewrite (nth_error_nth _ _ date0 (proj2 Hi)) in Ed. destruct (among_spec i B) as (A1 & A2 & _). cbv zeta in A1, A2.
    pose proof (among_range i B) as Ar.
    fold (record_of (t_mask u) u (among i)). rewrite record_date by (rewrite Ud, grid_len; exact Ar). rewrite Um, Ed.
    assert (elem (t_dates u) (among i) (in_year (znth l (znth Kt i / nd)) (date_at days (place (list_eq_dec Z.eq_dec) (records k days) (record_of k d0 (znth Kt i mod nd)))))) as He.
    { rewrite Ud. unfold among. apply grid_elem; [apply place_elem; apply ys_In; exists i; auto|]. split; [lia|]. unfold date_at. apply nth_error_nth'. apply within. exact A2. }
    unfold date_at at 2. rewrite (nth_error_nth _ _ date0 (proj2 He)). rewrite !project_in_year, !(without_none k Hyear). f_equal. rewrite <- !record_date by assumption.
    assert (elem (records k days) (place (list_eq_dec Z.eq_dec) (records k days) (record_of k d0 (znth Kt i mod nd))) (record_of k d0 (znth Kt i mod nd))) as Hp by (apply place_elem; apply days_In; exists i; auto).
    symmetry. exact (nth_error_nth _ _ [] (proj2 Hp)).
Qed.

(** reading the combinations *)
Notation ya := (year_axis ys).
Definition B : list axis := insert_at (set_at N yi ya) (S yi) (Time days).
Definition LB : list (list Z) := insert_at (set_at K yi (arange 0 (zlen ys) 1)) (S yi) (arange 0 (zlen (t_dates days)) 1).
Definition M : list (list Z) := insert_at (set_at K yi iy) (S yi) id_.
Lemma yiN : (yi < length N)%nat.
Proof. rewrite N_length. pose proof lenA. lia. Qed.
Lemma nth_two {X} (P : list X) u v j : length P = length N -> nth_error (insert_at (set_at P yi u) (S yi) v) j = if Nat.eqb j yi then Some u else if Nat.eqb j (S yi) then Some v else nth_error P (if Nat.ltb j yi then j else (j - 1)%nat).
Proof.
  intros HP. pose proof yiN. rewrite nth_error_insert_at by (rewrite length_set_at; lia). destruct (Nat.ltb_spec j (S yi)) as [Hj|Hj].
  - rewrite nth_error_set_at by lia. destruct (Nat.eqb_spec yi j), (Nat.eqb_spec j yi); try congruence; try lia. destruct (Nat.eqb_spec j (S yi)); [lia|]. destruct (Nat.ltb_spec j yi); [reflexivity|lia].
  - destruct (Nat.eqb_spec j yi); [lia|]. destruct (Nat.eqb_spec j (S yi)) as [E|E]; [reflexivity|]. rewrite nth_error_set_at by lia. destruct (Nat.eqb_spec yi (j - 1)); [lia|]. destruct (Nat.ltb_spec j yi); [lia|reflexivity].
Qed.
Lemma B_nth j : nth_error B j = if Nat.eqb j yi then Some ya else if Nat.eqb j (S yi) then Some (Time days) else nth_error A j.
Proof.
  unfold B. rewrite nth_two by reflexivity. destruct (Nat.eqb_spec j yi) as [|E1]; [reflexivity|]. destruct (Nat.eqb_spec j (S yi)) as [|E2]; [reflexivity|]. rewrite N_nth.
  destruct (Nat.ltb_spec j yi) as [H|H].
  - destruct (Nat.ltb_spec j yi); [reflexivity|lia].
  - destruct (Nat.ltb_spec (j - 1) yi); [lia|]. destruct (Nat.eqb_spec (j - 1) yi); [lia|]. f_equal. lia.
Qed.
Lemma B_length : length B = length A.
Proof. unfold B. rewrite length_insert, length_set_at, N_length. pose proof lenA. lia. Qed.
Lemma LB_length : length LB = length B.
Proof. unfold LB, B. rewrite !length_insert, !length_set_at, lenK. reflexivity. Qed.
Lemma ya_length : axis_len ya = zlen ys.
Proof. unfold axis_len, axis_vals, SplitModel.year_axis, IndexSpec.zlen. cbn. now rewrite map_length. Qed.
Lemma BLB : Forall2 (fun a l => in_range (axis_len a) l) B LB.
Proof.
  unfold B, LB. apply Forall2_insert; [|apply range_arange]. apply Forall2_set_both; [|rewrite <- ya_length; apply range_arange]. eapply Forall2_impl; [|exact HK]. intros a l' (_ & H & _). exact H.
Qed.
Lemma in_view : bind (replace_axis env (view_of_inds N K) yi ya whole) (fun v1 => add_axis env v1 (S yi) (Time days) whole) = Some (view_of_inds B LB).
Proof.
  assert (Forall2 (fun a l => in_range (axis_len a) l) N K) as H by (eapply Forall2_impl; [|exact HK]; intros a l' (_ & H & _); exact H).
  rewrite replace_whole; [|exact H|exact yiN]. cbn [bind]. rewrite ya_length.
  rewrite (add_axis_inds env junk _ _ (S yi) (Time days) (arange 0 (zlen (t_dates days)) 1) whole); [reflexivity| |reflexivity|apply range_arange].
  apply Forall2_set_both; [exact H|]. rewrite <- ya_length. apply range_arange.
Qed.
Lemma not_time j a : j <> S yi -> nth_error A j = Some a -> match a with Time _ => False | _ => True end.
Proof. intros Hj Ha. destruct a as [| |u]; try exact I. apply Hj. exact (Honly j u Ha). Qed.
Lemma B_unrelated j i a b : nth_error A j = Some a -> nth_error B i = Some b -> i <> j -> unrelated a b.
Proof.
  intros Ha Hb Hij. destruct Hx as [Hs _]. rewrite B_nth in Hb. destruct (Nat.eqb_spec i yi) as [->|E1].
  - injection Hb as <-. exact (Hs j yi a (year_axis l) Ha Hy (not_eq_sym Hij)).
  - destruct (Nat.eqb_spec i (S yi)) as [->|E2].
    + injection Hb as <-. pose proof (Hs j (S yi) a (Time d0) Ha Hd (not_eq_sym Hij)) as U. pose proof (not_time j a (not_eq_sym Hij) Ha) as Hn. destruct Hdays as (C1 & _). destruct times_is as (C2 & _).
      apply (unrelated_time d0 days a Hn); [congruence|exact U].
    + exact (Hs j i a b Ha Hb (not_eq_sym Hij)).
Qed.
Lemma A_sel j a m : nth_error A j = Some a -> j <> yi -> j <> S yi -> nth_error M j = Some m -> nth_error LB j = Some m /\ selection a m.
Proof.
  intros Ha H1 H2 Hm. unfold M in Hm. unfold LB. rewrite nth_two in Hm |- * by apply lenK. destruct (Nat.eqb_spec j yi); [contradiction|]. destruct (Nat.eqb_spec j (S yi)); [contradiction|]. split; [exact Hm|].
  apply (Forall2_nth_error _ _ _ _ _ _ HK) with (2 := Hm). rewrite N_nth. destruct (Nat.ltb_spec j yi) as [H|H].
  - destruct (Nat.ltb_spec j yi); [exact Ha|lia].
  - destruct (Nat.ltb_spec (j - 1) yi); [lia|]. destruct (Nat.eqb_spec (j - 1) yi); [lia|]. replace (S (j - 1)) with j by lia. exact Ha.
Qed.
Lemma iy_len : zlen iy = zlen ys.
Proof. unfold iy. apply zlen_map. Qed.
Lemma id_len : zlen id_ = zlen (t_dates days).
Proof. unfold id_. rewrite zlen_map. apply zlen_rec. Qed.
Lemma the_data : exists r, ViewModel.get (axis_ops env) junk (view_of_inds B LB) x true true = Some r /\ array_is r (map zlen LB) (fun p => D (gather M p)).
Proof.
  assert (length M = length A) as HlM. { unfold M. rewrite length_insert, length_set_at, lenK, N_length. pose proof lenA. lia. }
  apply (get_aligned env Henv junk x D B LB M Hx B_length LB_length).
  - apply Forall2_intro_nth; [lia|]. intros j a m Ha Hm. destruct (Nat.eq_dec j yi) as [->|H1]; [|destruct (Nat.eq_dec j (S yi)) as [->|H2]].
    + unfold M in Hm. rewrite nth_two in Hm by apply lenK. rewrite Nat.eqb_refl in Hm. injection Hm as <-. rewrite Hy in Ha. injection Ha as <-. split.
      * assert (axis_len (year_axis l) = zlen l) as -> by (unfold axis_len, axis_vals, SplitModel.year_axis, IndexSpec.zlen; cbn; now rewrite map_length). exact iy_range.
      * apply SplitProofs.NoDup_various; [exact iy_NoDup|]. intros E. apply map_eq_nil in E. exact (ys_ne E).
    + unfold M in Hm. rewrite nth_two in Hm by apply lenK. rewrite Nat.eqb_refl in Hm. destruct (Nat.eqb_spec (S yi) yi); [lia|]. injection Hm as <-. rewrite Hd in Ha. injection Ha as <-. split; [exact id_range|].
      apply SplitProofs.NoDup_various; [exact id_NoDup|]. intros E. apply map_eq_nil in E. apply map_eq_nil in E. exact (days_ne E).
    + apply selection_various. exact (proj2 (A_sel j a m Ha H1 H2 Hm)).
  - intros j a m Ha Hm. destruct (Nat.eq_dec j yi) as [->|H1]; [|destruct (Nat.eq_dec j (S yi)) as [->|H2]].
    + unfold M in Hm. rewrite nth_two in Hm by apply lenK. rewrite Nat.eqb_refl in Hm. injection Hm as <-. rewrite Hy in Ha. injection Ha as <-.
      assert (iy = map (znth iy) (arange 0 (zlen ys) 1)) as -> by (rewrite <- iy_len; symmetry; apply znth_arange).
      apply (derived_mapped env Henv junk B LB (year_axis l) yi iy (arange 0 (zlen ys) 1) BLB).
      * split; [cbn [snd]; assert (axis_len (year_axis l) = zlen l) as -> by (unfold axis_len, axis_vals, SplitModel.year_axis, IndexSpec.zlen; cbn; now rewrite map_length); exact iy_range|].
        exists ya. cbn [fst snd]. split; [rewrite B_nth, Nat.eqb_refl; reflexivity|]. split.
        -- left. split; [cbn; split; [now apply years_separated|]; split; [constructor|apply (proj2 Henv)]|]. cbn. repeat (split; [reflexivity|]). split; [|split; [reflexivity|apply (proj2 Henv)]].
           unfold pick, iy. rewrite map_map. apply map_ext_in. intros y Hy'. pose proof (place_elem Z.eq_dec l y (ys_sub y Hy')) as [_ He].
           rewrite (nth_error_nth _ _ 0%Q (map_nth_error inject_Z _ _ He)). reflexivity.
        -- intros i' b' Hi Hb. exact (B_unrelated yi i' (year_axis l) b' Hy Hb Hi).
      * unfold LB. rewrite nth_two by apply lenK. rewrite Nat.eqb_refl. reflexivity.
    + unfold M in Hm. rewrite nth_two in Hm by apply lenK. rewrite Nat.eqb_refl in Hm. destruct (Nat.eqb_spec (S yi) yi); [lia|]. injection Hm as <-. rewrite Hd in Ha. injection Ha as <-.
      pose proof Hdays as (C1 & C2 & C3 & _). pose proof times_is as (C4 & _).
      apply (time_mapped_any env Henv B LB (S yi) d0 days (arange 0 (zlen (t_dates days)) 1) id_ BLB).
      * rewrite B_nth. destruct (Nat.eqb_spec (S yi) yi); [lia|]. rewrite Nat.eqb_refl. reflexivity.
      * unfold LB. rewrite nth_two by apply lenK. destruct (Nat.eqb_spec (S yi) yi); [lia|]. rewrite Nat.eqb_refl. reflexivity.
      * exact Gd.
      * exact Gdays.
      * congruence.
      * exact C3.
      * exact id_range.
      * rewrite id_len. symmetry. apply zlen_arange, zlen_nonneg.
      * assert (pick [] (records k days) (arange 0 (zlen (t_dates days)) 1) = records k days) as ->.
        { rewrite <- zlen_rec. apply list_ext_len; [unfold pick; rewrite zlen_map; apply zlen_arange, zlen_nonneg|]. intros i r r' Hr Hr'. unfold pick in Hr. apply elem_map in Hr as (i' & Hi' & ->). apply elem_arange01 in Hi' as [Ei _]. assert (i' = i) as -> by lia. exact (nth_error_nth _ _ [] (proj2 Hr')). }
        unfold pick, id_. rewrite map_map. rewrite <- (map_id (records k days)) at 1. apply map_ext_in. intros r Hr. pose proof (place_elem (list_eq_dec Z.eq_dec) _ r (days_sub r Hr)) as [_ He]. symmetry. exact (nth_error_nth _ _ [] He).
      * intros j a Hj Ha. exact (B_unrelated (S yi) j (Time d0) a Hd Ha Hj).
    + destruct (A_sel j a m Ha H1 H2 Hm) as [E1 E2]. apply (mapped_same (axis_ops env) junk B LB a j a m LB_length).
      * rewrite B_nth. destruct (Nat.eqb_spec j yi); [contradiction|]. destruct (Nat.eqb_spec j (S yi)); [contradiction|]. exact Ha.
      * exact E1.
      * apply same_refl.
      * intros i b Hi Hb. apply unrelated_same. apply (B_unrelated j i a b Ha Hb). lia.
      * apply E2.
Qed.

Lemma s_at : nth_error s yi = Some (zlen Kt).
Proof. rewrite nth_error_map, Kt_nth. reflexivity. Qed.
Lemma join_rest : exists r, bind (replace_axis env (view_of_inds N K) yi ya whole) (fun v1 => bind (add_axis env v1 (S yi) (Time days) whole) (fun inview =>
    bind (ViewModel.get (axis_ops env) junk inview x true true) (fun data =>
    bind (transpose data (rolled (length (shape data)) (S yi) (S yi))) (fun data =>
    bind (reshape_rest data (firstn yi (shape data)) (skipn (S (S yi)) (shape data))) (fun data =>
    bind (jointime (axis_vals ya) days) (fun uber =>
    bind (axis_map_to env (Time uber) (Time times)) (fun ind =>
    get_along data yi (SList ind)))))))) = Some r /\ array_is r s (fun p => unmerged D yi nd (gather K p) (nth yi (gather K p) 0)).
Proof.
  pose proof in_view as E1. destruct (replace_axis env (view_of_inds N K) yi ya whole) as [v1|]; [|discriminate E1]. cbn [bind] in E1 |- *. rewrite E1. cbn [bind].
  destruct the_data as (r1 & E2 & A2). rewrite E2. cbn [bind].
  pose proof yiN as HyN. pose proof lenK as HlK. pose proof lenA as HlA. assert (yi < length s)%nat as Hys by (rewrite map_length; lia).
  set (ny := zlen ys) in *. set (nn := zlen (t_dates days)) in *.
  assert (map zlen LB = insert_at (set_at s yi ny) (S yi) nn) as ES.
  { unfold LB. rewrite map_insert, map_set_at, !zlen_arange by apply zlen_nonneg. reflexivity. }
  assert (length (shape r1) = length A) as Hsh by (rewrite (proj1 A2), map_length, LB_length, B_length; reflexivity).
  assert (rolled (length (shape r1)) (S yi) (S yi) = seq 0 (length (shape r1))) as ->.
  { unfold rolled. rewrite Nat.sub_diag, Hsh. replace (length A) with (S yi + S (length A - S (S yi)))%nat at 2 by lia. rewrite seq_app. reflexivity. }
  destruct (transpose_same r1 _ _ A2) as (r2 & E3 & A3). rewrite E3. cbn [bind]. rewrite (proj1 A3), ES.
  assert (0 < ny) as Hny. { unfold ny. pose proof ys_ne as Hne. destruct ys; [congruence|]. unfold IndexSpec.zlen. cbn. lia. }
  assert (0 < nn) as Hnn. { unfold nn. pose proof days_ne as Hne. destruct (t_dates days); [congruence|]. unfold IndexSpec.zlen. cbn. lia. }
  assert (forall (u v : Z) (w : list Z) (i : nat), (i < length w)%nat -> firstn i (insert_at (set_at w i u) (S i) v) = firstn i w /\ skipn (S (S i)) (insert_at (set_at w i u) (S i) v) = skipn (S i) w) as FS.
  { clear. intros u v w i. revert w. induction i as [|i IH]; intros [|h w] Hi; cbn [length] in Hi; try lia; [split; reflexivity|]. change (insert_at (set_at (h :: w) (S i) u) (S (S i)) v) with (h :: insert_at (set_at w i u) (S i) v).
    destruct (IH w) as [H1 H2]; [lia|]. cbn [firstn]. rewrite H1. split; [reflexivity|exact H2]. }
  destruct (FS ny nn s yi Hys) as [F1 F2]. rewrite F1, F2. clear FS F1 F2.
  assert (forall (w : list Z) v i, (i < length w)%nat -> set_at w i v = firstn i w ++ v :: skipn (S i) w) as SS.
  { clear. intros w v i. revert w. induction i as [|i IH]; intros [|h w] Hi; cbn [length] in Hi; try lia; [reflexivity|]. cbn [set_at firstn app]. rewrite (IH w) by lia. reflexivity. }
  assert (Forall (fun n => 0 < n) s) as Hpos.
  { apply Forall_map, Forall_forall. intros m Hm. apply In_nth_error in Hm as (j & Hj). destruct (nth_error N j) as [a|] eqn:Ea; [|apply nth_error_None in Ea; assert (j < length K)%nat by (apply nth_error_Some; congruence); lia].
    destruct (Forall2_nth_error _ _ _ _ _ _ HK Ea Hj) as (Hne & _). destruct m; [congruence|]. unfold IndexSpec.zlen. cbn. lia. }
  assert (0 < prod (firstn yi s) * prod (skipn (S yi) s)) as Hpp.
  { apply Z.mul_pos_pos; apply prod_positive; apply Forall_forall; intros n Hn; apply (proj1 (Forall_forall _ _) Hpos).
    - rewrite <- (firstn_skipn yi s). apply in_or_app. now left.
    - rewrite <- (firstn_skipn (S yi) s). apply in_or_app. now right. }
  assert (exists r3, reshape_rest r2 (firstn yi s) (skipn (S yi) s) = Some r3 /\ array_is r3 (set_at s yi (ny * nn)) (fun p => D (gather M (insert_at (set_at p yi (nth yi p 0 / nn)) (S yi) (nth yi p 0 mod nn))))) as (r3 & E4 & A4).
  { rewrite ES in A3. destruct (reshape_merge r2 s yi ny nn _ Hys A3) as (c & Ec & Ac); [lia|lia|]. exists c. split; [|exact Ac]. unfold reshape_rest. destruct (Z.eqb_spec (prod (firstn yi s) * prod (skipn (S yi) s)) 0); [lia|].
    assert (prod (shape r2) / (prod (firstn yi s) * prod (skipn (S yi) s)) = ny * nn) as ->; [|rewrite <- SS by exact Hys; exact Ec].
    rewrite (proj1 A3), prod_merge, SS, prod_app by exact Hys. cbn [prod fold_right]. change (fold_right Z.mul 1 (skipn (S yi) s)) with (prod (skipn (S yi) s)).
    replace (prod (firstn yi s) * (ny * nn * prod (skipn (S yi) s))) with (ny * nn * (prod (firstn yi s) * prod (skipn (S yi) s))) by ring. apply Z.div_mul. lia. }
  rewrite E4. cbn [bind]. change (axis_vals ya) with (map inject_Z ys). destruct uber_spec as (u & Eu & Gu & U1 & U2 & U3). rewrite Eu. cbn [bind]. rewrite (uber_map u Gu U1 U2 U3). cbn [bind].
  unfold get_along. rewrite (proj1 A4). assert (nth_error (set_at s yi (ny * nn)) yi = Some (ny * nn)) as En by (rewrite nth_error_set_at, Nat.eqb_refl by exact Hys; reflexivity).
  rewrite (nth_error_nth _ _ 0 En), (np_index_list ind (ny * nn) ind_range). cbn [option_map]. eexists. split; [reflexivity|].
  pose proof (take_array _ yi _ r3 _ ind A4 En ind_range) as A5. rewrite set_at_set, ind_len, (set_at_nth s yi _ s_at) in A5. eapply array_is_ext; [exact A5|]. intros p Hp. cbv beta.
  assert (length p = length K) as Hlp by (apply Forall2_len in Hp; rewrite map_length in Hp; lia). assert (0 <= nth yi p 0 < zlen Kt) as Bp by (eapply position_at; [exact Hp|exact s_at]).
  rewrite nth_set_same by lia. unfold ind. rewrite znth_map by (rewrite zlen_arange by apply zlen_nonneg; exact Bp). rewrite (znth_arange1 0 (zlen Kt)) by lia. rewrite Z.add_0_l, set_at_set.
  destruct (among_spec (nth yi p 0) Bp) as (H1 & H2 & H3 & H4). unfold unmerged. rewrite (nth_gather' K p yi Kt Hlp Kt_nth).
  unfold among. cbv zeta. set (a := place Z.eq_dec ys _) in *. set (b := place (list_eq_dec Z.eq_dec) _ _) in *. fold nn in H2 |- *.
  assert ((a * nn + b) / nn = a) as -> by (symmetry; apply (Z.div_unique_pos _ _ _ b); lia). assert ((a * nn + b) mod nn = b) as -> by (symmetry; apply (Z.mod_unique_pos _ _ a); lia).
  f_equal. unfold M. rewrite gather_insert by (rewrite !length_set_at; exact Hlp). rewrite gather_set, gather_set_p, set_at_set, nth_set_same by lia. rewrite H3, H4. reflexivity.
Qed.
End JoinView.

Theorem join_view_spec env (Henv : env_ok env) lexsort (Hlex : lexsort_ok lexsort) junk named year_name x D yi l d0 T K :
  responds env x D -> NoDup l -> Forall (fun y => -99998 <= y <= 99998) l -> good_axis (Time d0) -> my (t_mask d0) = false -> t_cal d0 <> Yearless ->
  nth_error (var_axes x) yi = Some (year_axis env named year_name l) -> nth_error (var_axes x) (S yi) = Some (Time d0) ->
  (forall i s, nth_error (var_axes x) i = Some (Time s) -> i = S yi) -> jointime (map inject_Z l) d0 = Some T -> Forall (valid_date (t_cal d0)) (t_dates T) ->
  Forall2 selection (joined_axes x yi T) K ->
  exists r, join_view env lexsort junk named year_name x yi (S yi) (view_of_inds (joined_axes x yi T) K) = Some r /\
    array_is r (map zlen K) (fun p => unmerged D yi (zlen (t_dates d0)) (gather K p) (nth yi (gather K p) 0)).
Proof.
  intros Hx Hl Hlb Gd Hyear Hcal Hy Hd Honly HT Hvalid HK.
  pose proof (Kt_nth junk x yi l d0 Hd Honly T K HK) as HKt. pose proof (N_yi env junk named year_name x yi l d0 Hy Hd Honly T) as HN.
  pose proof (take_time env (Time T) (nth yi K [])) as Htt. destruct (axis_take env (Time T) (nth yi K [])) as [| |times] eqn:Et; try (destruct Htt; fail).
  pose proof (times_fine env Henv junk named year_name x yi l Hl Hlb d0 Gd Hyear Hcal Hy Hd Honly T HT Hvalid K HK times Et) as Gt.
  pose proof (times_is env Henv junk named year_name x yi l Hl Hlb d0 Gd Hyear Hcal Hy Hd Honly T HT Hvalid K HK times Et) as (T1 & T2 & T3 & T4).
  assert (some_field (t_mask d0)) as Hf by apply Gd.
  assert (without_year (t_mask times) = t_mask d0) as Em by (rewrite T3; apply without_with; exact Hyear).
  destruct (modify_spec lexsort Hlex times (t_mask d0) Gt Hf) as (days & Ed & Gdays & D1 & D2 & D3 & D4 & D5). { rewrite T3. destruct (t_mask d0) as [[] [] [] [] [] []]; reflexivity. }
  unfold join_view, subaxis. cbn [vaxes vslices view_of_inds]. rewrite HN. cbn [bind]. rewrite nth_error_map, HKt. cbn [option_map bind].
  rewrite np_index_simplify by apply (Forall2_nth_error _ _ _ _ _ _ HK HN HKt). cbn [option_map bind]. rewrite Et.
  unfold splittime. assert (my (t_mask times) = true) as -> by (rewrite T3; reflexivity). rewrite Em, Ed. cbn [bind].
  apply (join_rest env Henv junk named year_name x D Hx yi l Hl Hlb d0 Gd Hyear Hcal Hy Hd Honly T HT Hvalid K HK times Et days Gdays).
  - repeat split; try assumption; apply D5.
  - apply (modify_masked lexsort times (t_mask d0) days Hlex Hf Ed).
Qed.
