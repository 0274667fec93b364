(** Axes restricted to index lists: length, equality and map_to *)
From Coq Require Import ZArith List Bool QArith_base Qabs QArith Lqa Lia Permutation.
From Verif Require Import CalModel CalSpec SortModel SortSpec SortProofs MapToProofs TimeSearchModel TimeSearchSpec
  TimeSearchProofs TimeMapProofs TimeDateProofs
  IndexModel IndexSpec IndexProofs ArrModel ViewModel ViewSpec ArrProofs ViewProofs AxisModel AxisSpec.
Import ListNotations.
Open Scope Z_scope.

Lemma elem_pick {A} (d : A) l ind k x : in_range (zlen l) ind ->
  elem (pick d l ind) k x <-> exists i, elem ind k i /\ elem l i x.
Proof.
  intros Hr. unfold pick. rewrite elem_map. split.
  - intros (i & Hi & ->). exists i. split; [exact Hi|]. pose proof (in_range_elem _ _ _ _ Hr Hi) as B.
    split; [lia|]. apply nth_error_nth'. unfold zlen in B. lia.
  - intros (i & Hi & H1 & H2). exists i. split; [exact Hi|]. symmetry. now apply nth_error_nth.
Qed.

Lemma zlen_pick {A} (d : A) l ind : zlen (pick d l ind) = zlen ind.
Proof. apply zlen_map. Qed.

Lemma elem_range {A} (l : list A) k x : elem l k x -> 0 <= k < zlen l.
Proof. apply IndexProofs.elem_lt. Qed.

Lemma pick_pick {A} (d : A) l ind ind2 : in_range (zlen l) ind -> in_range (zlen ind) ind2 ->
  pick d (pick d l ind) ind2 = pick d l (map (znth ind) ind2).
Proof.
  intros H1 H2. unfold pick at 1 3. rewrite map_map. apply map_ext_in. intros i Hi.
  apply (proj1 (Forall_forall _ _) H2) in Hi.
  unfold pick, znth. rewrite (nth_indep _ _ (nth (Z.to_nat 0) l d)) by (rewrite map_length; unfold zlen in Hi; lia).
  now rewrite (map_nth (fun i => nth (Z.to_nat i) l d)).
Qed.

Lemma range_arange n : in_range n (arange 0 n 1).
Proof. apply Forall_forall. intros x Hx. apply IndexProofs.In_elem in Hx as (k & Hk). apply elem_arange in Hk; lia. Qed.

Lemma elem_arange01 n k x : elem (arange 0 n 1) k x <-> x = k /\ 0 <= k < n.
Proof. rewrite elem_arange by lia. lia. Qed.

Lemma pick_arange {A} (d : A) l : pick d l (arange 0 (zlen l) 1) = l.
Proof.
  apply list_ext. intros k x. rewrite elem_pick by apply range_arange. split.
  - intros (i & Hi & H). apply elem_arange01 in Hi as [-> _]. exact H.
  - intros H. exists k. split; [|exact H]. apply elem_arange01. split; [reflexivity|]. now apply elem_range in H.
Qed.

Lemma znth_arange l : map (znth l) (arange 0 (zlen l) 1) = l.
Proof.
  apply list_ext. intros k x. rewrite elem_map. split.
  - intros (i & Hi & ->). apply elem_arange01 in Hi as [-> Hk]. now apply elem_znth.
  - intros H. exists k. split; [|symmetry; now apply znth_elem]. apply elem_arange01. split; [reflexivity|]. now apply elem_range in H.
Qed.

Lemma arange_znth n l : in_range n l -> map (znth (arange 0 n 1)) l = l.
Proof.
  intros H. rewrite <- (map_id l) at 2. apply map_ext_in. intros i Hi. apply (proj1 (Forall_forall _ _) H) in Hi.
  apply znth_elem. apply elem_arange01. lia.
Qed.

Lemma zlen_arange n : 0 <= n -> zlen (arange 0 n 1) = n.
Proof. intros H. unfold arange. rewrite zlen_map. unfold zlen. rewrite seq_length. cbn. rewrite Z.div_1_r. lia. Qed.

Lemma is_arange l n : 0 <= n -> zlen l = n -> (forall k x, elem l k x -> x = k) -> l = arange 0 n 1.
Proof.
  intros H0 Hn H. apply list_ext. intros k x. rewrite elem_arange01. split.
  - intros K. split; [now apply H|]. apply elem_range in K. lia.
  - intros [-> K]. destruct (IndexProofs.elem_ex l k) as (y & Hy); [lia|]. now rewrite (H k y Hy) in Hy.
Qed.

Lemma qlist_eqb_elem x : forall y, qlist_eqb x y = true <->
  (zlen x = zlen y /\ forall k p q, elem x k p -> elem y k q -> (p == q)%Q).
Proof.
  induction x as [|p x IH]; intros [|q y]; cbn [qlist_eqb].
  - split; [intros _|reflexivity]. split; [reflexivity|]. intros k p q H. now apply IndexProofs.elem_nil in H.
  - split; [discriminate|]. intros [H _]. rewrite zlen_cons in H. pose proof (zlen_nonneg y). unfold zlen in H at 1. cbn in H. lia.
  - split; [discriminate|]. intros [H _]. rewrite zlen_cons in H. pose proof (zlen_nonneg x). unfold zlen in H at 2. cbn in H. lia.
  - rewrite andb_true_iff, IH, !zlen_cons. unfold q_eqb. rewrite Qeq_bool_iff. split.
    + intros (E & L & H). split; [lia|]. intros k a b Ha Hb. apply IndexProofs.elem_cons in Ha, Hb.
      destruct Ha as [[-> ->]|[K Ha]], Hb as [[Kb ->]|[Kb Hb]]; try lia; [exact E|]. eapply H; eassumption.
    + intros (L & H). split; [apply (H 0); apply IndexProofs.elem_0; reflexivity|]. split; [lia|].
      intros k a b Ha Hb. pose proof (elem_range _ _ _ Ha). apply (H (k + 1)); apply IndexProofs.elem_S; auto; lia.
Qed.

Lemma q_close_refl x : np_close x x.
Proof.
  unfold np_close. setoid_replace (x - x)%Q with 0%Q by ring. pose proof (Qabs_nonneg x).
  change (Qabs 0) with 0%Q. nra.
Qed.
Lemma Qeq_close x y : (x == y)%Q -> np_close x y.
Proof. unfold np_close. intros ->. apply q_close_refl. Qed.
Lemma close_spec x y : close x y = true <-> np_close x y.
Proof. unfold close, np_close. apply Qle_bool_iff. Qed.

Lemma separated_distinct l : separated l -> distinct l.
Proof. intros H i j x y Hi Hj Hn K. exact (H i j x y Hi Hj Hn (Qeq_close _ _ K)). Qed.

Lemma separated_elem l i j x y : separated l -> elem l i x -> elem l j y -> np_close x y -> i = j.
Proof. intros H Hi Hj K. destruct (Z.eq_dec i j) as [|Hn]; [assumption|]. exfalso. exact (H _ _ _ _ Hi Hj Hn K). Qed.

Lemma allclose_elem x : forall y, allclose x y = true ->
  zlen x = zlen y /\ forall k p q, elem x k p -> elem y k q -> np_close p q.
Proof.
  unfold allclose. intros y H. apply andb_true_iff in H as [H1 H2]. apply Nat.eqb_eq in H1. split; [unfold zlen; lia|].
  revert y H1 H2. induction x as [|p x IH]; intros [|q y]; cbn; intros H1 H2 k a b Ha Hb; try discriminate.
  - now apply IndexProofs.elem_nil in Ha.
  - apply andb_true_iff in H2 as [H2 H3]. apply IndexProofs.elem_cons in Ha, Hb.
    destruct Ha as [[-> ->]|[K Ha]], Hb as [[Kb ->]|[Kb Hb]]; try lia; [now apply close_spec|].
    eapply (IH y); [lia|exact H3|exact Ha|exact Hb].
Qed.

(** map_to on a list of elements of the axis itself *)
Lemma map_to_exact a l rtol : distinct a -> (0 <= rtol)%Q -> in_range (zlen a) l ->
  SortModel.map_to a (pick 0%Q a l) rtol = Some l.
Proof.
  intros Hd Hr Hl. destruct (MapToProofs.map_to_spec a (pick 0%Q a l) rtol Hd) as (ind & -> & M). f_equal.
  revert ind M. induction l as [|i l IH]; cbn [pick map]; intros ind M; [now inversion M|].
  inversion Hl as [|? ? Hi Hl']; subst. specialize (IH Hl').
  assert (elem a i (nth (Z.to_nat i) a 0%Q)) as Ei.
  { split; [lia|]. apply nth_error_nth'. unfold zlen in Hi. lia. }
  set (B := nth (Z.to_nat i) a 0%Q) in *.
  inversion M as [|? ? j ind' Hn M'|? ? ? Hn M']; subst.
  - f_equal; [|now apply IH]. destruct Hn as (x & Hx & _ & Hmin). specialize (Hmin i B Ei).
    destruct (Z.eq_dec j i) as [|Hne]; [assumption|]. exfalso. apply (Hd j i x B Hx Ei Hne).
    setoid_replace (B - B)%Q with 0%Q in Hmin by ring. change (Qabs 0) with 0%Q in Hmin. dabs; lra.
  - exfalso. specialize (Hn i B Ei). setoid_replace (B - B)%Q with 0%Q in Hn by ring. change (Qabs 0) with 0%Q in Hn.
    pose proof (Qabs_nonneg B). assert (0 <= rtol * Qabs B)%Q by (apply Qmult_le_0_compat; assumption). lra.
Qed.

Lemma class_eqb_refl c : class_eqb c c = true.
Proof. assert (prefix c c = true) by (induction c; cbn; [reflexivity|now rewrite Z.eqb_refl]). unfold class_eqb. now rewrite H. Qed.
Lemma prefix_refl c : prefix c c = true.
Proof. induction c; cbn; [reflexivity|now rewrite Z.eqb_refl]. Qed.
Lemma comparable_refl c : comparable c c = true.
Proof. unfold comparable. now rewrite prefix_refl. Qed.
Lemma mask_eqb_refl k : mask_eqb k k = true.
Proof. unfold mask_eqb. now rewrite !eqb_reflx. Qed.
Lemma mask_sub_refl k : mask_sub k k = true.
Proof. unfold mask_sub. destruct k as [[] [] [] [] [] []]; reflexivity. Qed.
Lemma mask_eqb_sub j k : mask_eqb j k = true -> mask_sub j k = true.
Proof. destruct j as [[] [] [] [] [] []], k as [[] [] [] [] [] []]; cbn; congruence. Qed.
Lemma class_eqb_prefix c d : class_eqb c d = true -> prefix c d = true.
Proof. unfold class_eqb. intros H. now apply andb_true_iff in H as [H _]. Qed.

(** time axes *)
Lemma value_of_project c s u k d d' : project k d = project k d' -> axis_value c s u k d = axis_value c s u k d'.
Proof.
  intros H. unfold axis_value. f_equal. unfold project in H. unfold mask_date.
  destruct k as [[] [] [] [] [] []], d, d'; cbn in *; congruence.
Qed.

Lemma time_length t : good_axis (Time t) -> length (t_vals t) = length (t_dates t).
Proof. intros (_ & _ & _ & H & _). apply (f_equal (@length _)) in H. rewrite !map_length in H. now symmetry. Qed.

Lemma time_vals_distinct t : good_axis (Time t) -> distinct (t_vals t).
Proof.
  intros (Hs & Hv & Hk & Hvals & Hnd & _) i j x y Hi Hj Hne E.
  assert (Hlen : length (t_vals t) = length (t_dates t)).
  { apply (f_equal (@length _)) in Hvals. rewrite !map_length in Hvals. now symmetry. }
  pose proof (elem_range _ _ _ Hi) as Ri. pose proof (elem_range _ _ _ Hj) as Rj. unfold zlen in *. rewrite Hlen in Ri, Rj.
  destruct (IndexProofs.elem_ex (t_dates t) i Ri) as (a & Ha). destruct (IndexProofs.elem_ex (t_dates t) j Rj) as (b & Hb).
  pose proof (map_opt_at _ _ _ _ _ _ Hvals Ha Hi) as Ea. pose proof (map_opt_at _ _ _ _ _ _ Hvals Hb Hj) as Eb.
  assert (In a (t_dates t)) as Ia by now apply IndexProofs.elem_In in Ha.
  assert (In b (t_dates t)) as Ib by now apply IndexProofs.elem_In in Hb.
  rewrite Forall_forall in Hv.
  destruct (lex_trich (project (t_mask t) a) (project (t_mask t) b)) as [K|[K|K]].
  - now rewrite !project_len.
  - pose proof (axis_value_lt _ _ _ _ _ _ _ _ Hs (Hv a Ia) (Hv b Ib) Ea Eb K). lra.
  - apply Hne. eapply (NoDup_at (records (t_mask t) t)); [exact Hnd| |].
    + apply (elem_map (project (t_mask t))). exists a. split; [exact Ha|reflexivity].
    + apply (elem_map (project (t_mask t))). exists b. split; [exact Hb|exact K].
  - pose proof (axis_value_lt _ _ _ _ _ _ _ _ Hs (Hv b Ib) (Hv a Ia) Eb Ea K). lra.
Qed.

Lemma project_pick k l ind : in_range (zlen l) ind -> map (project k) (pick date0 l ind) = pick [] (map (project k) l) ind.
Proof.
  intros H. unfold pick. rewrite map_map. apply map_ext_in. intros i Hi. apply (proj1 (Forall_forall _ _) H) in Hi.
  rewrite (nth_indep (map (project k) l) [] (project k date0)) by (rewrite map_length; unfold zlen in Hi; lia).
  now rewrite map_nth.
Qed.

Lemma mapped_exact rows l ind : NoDup rows -> in_range (zlen rows) l ->
  TimeSearchSpec.mapped rows (pick [] rows l) ind -> ind = l.
Proof.
  intros Hnd. revert ind. induction l as [|i l IH]; cbn [pick map]; intros ind Hl M; [now inversion M|].
  inversion Hl as [|? ? Hi Hl']; subst.
  assert (elem rows i (nth (Z.to_nat i) rows [])) as Ei.
  { split; [lia|]. apply nth_error_nth'. unfold zlen in Hi. lia. }
  inversion M as [|? j ? ind' Hj M'|? ? ? Hn M']; subst.
  - f_equal; [|now apply IH]. eapply NoDup_at; eassumption.
  - exfalso. apply Hn. eapply IndexProofs.elem_In. exact Ei.
Qed.

Lemma fields_mask_sub j k :
  (my j = true -> my k = true) /\ (mm j = true -> mm k = true) /\ (md j = true -> md k = true) /\
  (mh j = true -> mh k = true) /\ (mmi j = true -> mmi k = true) /\ (ms j = true -> ms k = true) -> mask_sub j k = true.
Proof.
  unfold mask_sub. intros H. decompose [and] H. rewrite !andb_true_iff. repeat split;
  match goal with |- implb ?a ?b = true => destruct a; [cbn; auto|reflexivity] end.
Qed.
Lemma mask_sub_fields j k : mask_sub j k = true ->
  (my j = true -> my k = true) /\ (mm j = true -> mm k = true) /\ (md j = true -> md k = true) /\
  (mh j = true -> mh k = true) /\ (mmi j = true -> mmi k = true) /\ (ms j = true -> ms k = true).
Proof.
  unfold mask_sub. rewrite !andb_true_iff. intros H. decompose [and] H. repeat split;
  intros E; match goal with H : implb ?a ?b = true |- ?b = true => rewrite E in H; exact H end.
Qed.
Lemma time_axis_no_map env s t : (mask_sub (t_mask s) (t_mask t) = true -> False) -> axis_map_to env (Time s) (Time t) = None.
Proof.
  intros H. cbn [axis_map_to]. unfold time_map. destruct (mask_sub _ _); [exfalso; auto|]. now rewrite andb_false_r.
Qed.

Section Env.
Context (env : axenv) (Henv : env_ok env).
Notation ops := (axis_ops env).

Lemma argsort_take l : exists sv, TimeSearchModel.take l (argsort env l) = Some sv /\
  forall i j x y, at_ sv i x -> at_ sv j y -> i < j -> (x <= y)%Q.
Proof.
  destruct Henv as [Ha _]. destruct (Ha l) as [Hp Hs].
  destruct (take_spec l (argsort env l)) as (sv & E & Hl & Hsv). { apply perm_range, Hp. }
  exists sv. split; [exact E|]. intros i j x y Hi Hj Hlt.
  destruct (take_inv _ _ _ _ _ E Hi) as (p & Hp1 & Hp2). destruct (take_inv _ _ _ _ _ E Hj) as (q & Hq1 & Hq2).
  eapply (Hs i j p q); eassumption.
Qed.

Lemma sliced_len a l b : good_axis a -> sliced a l b -> axis_len b = zlen l.
Proof.
  destruct a, b; cbn [sliced axis_len]; intros G H; try tauto.
  - destruct H as (_ & _ & _ & _ & H & _). rewrite H. apply zlen_pick.
  - destruct H as (_ & _ & H). rewrite H. apply zlen_pick.
  - destruct H as (_ & _ & _ & _ & _ & H & _). rewrite H. apply zlen_pick.
Qed.

Lemma sliced_refl a : good_axis a -> sliced a (arange 0 (axis_len a) 1) a.
Proof.
  destruct a as [c|n|t]; cbn [sliced axis_len good_axis]; intros G.
  - destruct G as (G1 & G2 & G3). repeat split; auto.
    + now rewrite pick_arange.
    + rewrite <- (map_id (c_aux c)) at 1. apply map_ext_in. intros [k v] Hk. f_equal.
      rewrite Forall_forall in G2. specialize (G2 _ Hk). cbn in G2.
      replace (zlen (c_vals c)) with (zlen v) by (unfold zlen; lia). now rewrite pick_arange.
  - repeat split; auto. now rewrite pick_arange.
  - pose proof (time_length t G) as HL. repeat split; auto; [now rewrite pick_arange|].
    replace (zlen (t_dates t)) with (zlen (t_vals t)) by (unfold zlen; lia). now rewrite pick_arange.
Qed.

(** when the values are unchanged the indices pick the same elements again *)
Lemma same_pick v l ind : distinct v -> in_range (zlen v) l -> in_range (zlen l) ind ->
  qlist_eqb (pick 0%Q (pick 0%Q v l) ind) (pick 0%Q v l) = true -> map (znth l) ind = l.
Proof.
  intros Hd Hl Hi E. rewrite pick_pick in E by assumption. apply qlist_eqb_elem in E as [E1 E2].
  rewrite !zlen_pick, zlen_map in E1.
  assert (in_range (zlen v) (map (znth l) ind)) as Hm.
  { apply Forall_forall. intros x Hx. apply in_map_iff in Hx as (i & <- & Hx). apply (proj1 (Forall_forall _ _) Hi) in Hx.
    eapply in_range_elem; [exact Hl|]. now apply elem_znth. }
  apply list_ext. intros k x. split; intros K.
  - assert (exists y, elem l k y) as (y & Hy) by (apply IndexProofs.elem_ex; apply elem_range in K; rewrite zlen_map in K; lia).
    pose proof (in_range_elem _ _ _ _ Hm K) as Rx. pose proof (in_range_elem _ _ _ _ Hl Hy) as Ry.
    destruct (IndexProofs.elem_ex v x Rx) as (p & Hp). destruct (IndexProofs.elem_ex v y Ry) as (q & Hq).
    replace x with y; [exact Hy|]. destruct (Z.eq_dec x y) as [|Hne]; [auto|]. exfalso. apply (Hd x y p q Hp Hq Hne).
    apply (E2 k); apply elem_pick; eauto.
  - assert (exists y, elem (map (znth l) ind) k y) as (y & Hy) by (apply IndexProofs.elem_ex; apply elem_range in K; rewrite zlen_map; lia).
    pose proof (in_range_elem _ _ _ _ Hm Hy) as Rx. pose proof (in_range_elem _ _ _ _ Hl K) as Ry.
    destruct (IndexProofs.elem_ex v x Ry) as (p & Hp). destruct (IndexProofs.elem_ex v y Rx) as (q & Hq).
    replace x with y; [exact Hy|]. destruct (Z.eq_dec x y) as [|Hne]; [auto|]. exfalso. apply (Hd y x q p Hq Hp); [congruence|].
    apply (E2 k); apply elem_pick; eauto.
Qed.

Lemma aux_pick_pick aux n l ind : Forall (fun kv : Z * list Q => length (snd kv) = n) aux ->
  in_range (Z.of_nat n) l -> in_range (zlen l) ind ->
  map (fun '(k, v) => (k, pick 0%Q v ind)) (map (fun '(k, v) => (k, pick 0%Q v l)) aux) =
  map (fun '(k, v) => (k, pick 0%Q v (map (znth l) ind))) aux.
Proof.
  intros H Hl Hi. rewrite map_map. apply map_ext_in. intros [k v] Hk. rewrite Forall_forall in H. specialize (H _ Hk). cbn in H.
  f_equal. apply pick_pick; [|exact Hi]. unfold zlen. now rewrite H.
Qed.

Lemma indices_q_elem n k x : elem (indices_q n) k x <-> x = inject_Z k /\ 0 <= k < Z.of_nat n.
Proof.
  unfold indices_q. rewrite elem_map. split.
  - intros (i & [H0 Hi] & ->). rewrite nth_error_seq in Hi. destruct (Nat.ltb_spec (Z.to_nat k) n); [|discriminate].
    injection Hi as <-. split; [f_equal; lia|lia].
  - intros [-> H]. exists (Z.to_nat k). split; [|f_equal; lia]. split; [lia|]. rewrite nth_error_seq.
    destruct (Nat.ltb_spec (Z.to_nat k) n); [reflexivity|lia].
Qed.

Lemma sliced_take a l b ind : good_axis a -> in_range (axis_len a) l -> in_range (zlen l) ind ->
  sliced a l b -> sliced a (map (znth l) ind) (axis_take env b ind).
Proof.
  intros G Hl Hi H. unfold axis_take. destruct (qlist_eqb _ _) eqn:E.
  - enough (map (znth l) ind = l) as -> by exact H.
    destruct a as [c|n|t], b as [c'|n'|t']; cbn [sliced axis_len axis_vals good_axis] in *; try tauto.
    + destruct H as (_ & _ & _ & _ & H & _). rewrite H in E. eapply same_pick; eauto. apply separated_distinct, G.
    + destruct H as (_ & _ & H). rewrite H in E. unfold pick at 2 3 in E. rewrite map_length in E.
      replace (map (znth l) ind) with (map (znth l) (arange 0 (zlen l) 1)); [apply znth_arange|]. f_equal.
      apply qlist_eqb_elem in E as [E1 E2]. rewrite zlen_pick in E1.
      assert (zlen (indices_q (length l)) = zlen l) as Z1 by (unfold zlen, indices_q; now rewrite map_length, seq_length).
      symmetry. apply is_arange; [apply zlen_nonneg|lia|]. intros k x K.
      pose proof (in_range_elem _ _ _ _ Hi K) as Rx. pose proof (elem_range _ _ _ K) as Rk.
      assert (inject_Z x == inject_Z k)%Q as Q1.
      { apply (E2 k).
        - apply elem_pick; [rewrite Z1; exact Hi|]. exists x. split; [exact K|]. apply indices_q_elem. unfold zlen in Rx. split; [reflexivity|lia].
        - apply indices_q_elem. unfold zlen in *. split; [reflexivity|lia]. }
      unfold Qeq in Q1. cbn in Q1. lia.
    + destruct H as (_ & _ & _ & _ & _ & _ & H). rewrite H in E. pose proof (time_length t G) as HL.
      eapply same_pick; eauto; [now apply time_vals_distinct|]. unfold zlen in *. now rewrite HL.
  - clear E. destruct a as [c|n|t], b as [c'|n'|t']; cbn [sliced axis_len axis_vals good_axis] in *; try tauto.
    + destruct H as (H1 & H2 & H3 & H4 & H5 & H6 & H7). cbn. repeat split; auto.
      * rewrite H5. apply pick_pick; assumption.
      * rewrite H6. eapply aux_pick_pick; [apply G|exact Hl|exact Hi].
      * apply Henv.
    + destruct H as (H1 & H2 & H3). cbn. repeat split; auto. rewrite H3. apply pick_pick; assumption.
    + destruct H as (H1 & H2 & H3 & H4 & H5 & H6 & H7). cbn. pose proof (time_length t G) as HL. repeat split; auto.
      * rewrite H6. apply pick_pick; assumption.
      * rewrite H7. apply pick_pick; [|assumption]. unfold zlen in *. now rewrite HL.
Qed.

Lemma Forall2_forallb {A} (P : A -> A -> bool) : forall x y, forallb (fun '(p, q) => P p q) (combine x y) = true ->
  forall k p q, elem x k p -> elem y k q -> P p q = true.
Proof.
  induction x as [|a x IH]; intros [|b y]; cbn; intros H k p q Hp Hq; try (now apply IndexProofs.elem_nil in Hp); try (now apply IndexProofs.elem_nil in Hq).
  apply andb_true_iff in H as [H1 H2]. apply IndexProofs.elem_cons in Hp, Hq.
  destruct Hp as [[-> ->]|[K Hp]], Hq as [[Kq ->]|[Kq Hq]]; try lia; [exact H1|]. eapply IH; eauto.
Qed.

Lemma zclose_eq x y : zclose x y = true -> -99998 <= y <= 99998 -> x = y.
Proof.
  unfold zclose. intros H B. apply close_spec in H. unfold np_close in H.
  rewrite <- inject_Z_opp in H || idtac.
  assert (inject_Z x - inject_Z y == inject_Z (x - y))%Q as E by (unfold Qminus; rewrite <- inject_Z_opp, <- inject_Z_plus; reflexivity).
  rewrite E in H. rewrite !Qabs_Zabs in H || idtac.
  destruct (Z.eq_dec x y) as [|Hne]; [assumption|exfalso].
  assert (1 <= Qabs (inject_Z (x - y)))%Q as H1.
  { change 1%Q with (inject_Z 1). unfold Qabs, inject_Z. unfold Qle. cbn. lia. }
  assert (Qabs (inject_Z y) <= inject_Z 99998)%Q as H2.
  { unfold Qabs, inject_Z, Qle. cbn. lia. }
  assert (inject_Z 99998 == 99998 # 1)%Q as E2 by reflexivity. rewrite E2 in H2. lra.
Qed.

Lemma rows_eq r : forall s, length r = length s -> Forall (fun x => -99998 <= x <= 99998) s ->
  forallb (fun '(x, y) => zclose x y) (combine r s) = true -> r = s.
Proof.
  induction r as [|x r IH]; intros [|y s]; cbn; intros L B H; try discriminate; [reflexivity|].
  apply andb_true_iff in H as [H1 H2]. inversion B; subst. f_equal; [now apply zclose_eq|]. apply IH; auto.
Qed.

(** an axis equals its restriction only if nothing was left out or moved *)
Lemma same_vals_arange v l : separated v -> in_range (zlen v) l -> zlen l = zlen v ->
  (forall k p q, elem v k p -> elem (pick 0%Q v l) k q -> np_close p q \/ np_close q p) -> l = arange 0 (zlen v) 1.
Proof.
  intros Hs Hl HL H. apply is_arange; [apply zlen_nonneg|exact HL|]. intros k x K.
  pose proof (in_range_elem _ _ _ _ Hl K) as Rx. pose proof (elem_range _ _ _ K) as Rk.
  destruct (IndexProofs.elem_ex v x Rx) as (q & Hq). destruct (IndexProofs.elem_ex v k) as (p & Hp); [lia|].
  destruct (H k p q Hp) as [N|N]; [apply elem_pick; eauto| |].
  - symmetry. eapply separated_elem; eassumption.
  - eapply separated_elem; eassumption.
Qed.

Lemma coord_eq_close c d : coord_eq c d = true -> zlen (c_vals c) = zlen (c_vals d) /\
  ((forall k p q, elem (c_vals c) k p -> elem (c_vals d) k q -> np_close p q) \/
   (forall k p q, elem (c_vals c) k p -> elem (c_vals d) k q -> np_close q p)).
Proof.
  intros H.
  assert ((if prefix (c_class c) (c_class d) && negb (prefix (c_class d) (c_class c)) then is_equivalent d c else is_equivalent c d) = true) as E.
  { unfold coord_eq in H. destruct (c_kind c), (c_kind d); try discriminate; auto; now apply andb_true_iff in H as [_ H]. }
  clear H. destruct (_ && _); unfold is_equivalent in E; repeat (apply andb_true_iff in E as [E ?]).
  - match goal with K : allclose (c_vals _) _ = true |- _ => apply allclose_elem in K as [K K'] end.
    split; [lia|]. right. intros k p q Hp Hq. eapply K'; eassumption.
  - match goal with K : allclose (c_vals _) _ = true |- _ => apply allclose_elem in K as [K K'] end.
    split; [lia|]. left. intros k p q Hp Hq. eapply K'; eassumption.
Qed.

Lemma sliced_same a l b : good_axis a -> in_range (axis_len a) l -> sliced a l b -> axis_same a b = true ->
  l = arange 0 (axis_len a) 1.
Proof.
  destruct a as [c|n|t], b as [c'|n'|t']; cbn [sliced axis_same axis_len good_axis]; intros G Hl H E; try tauto.
  - destruct H as (_ & _ & _ & _ & H & _). destruct G as [Gs _]. apply orb_true_iff in E as [E|E].
    + unfold coord_is in E. repeat (apply andb_true_iff in E as [E ?]). rewrite H in H0. apply qlist_eqb_elem in H0 as [L K].
      rewrite zlen_pick in L. apply same_vals_arange; auto. intros k p q Hp Hq. left. apply Qeq_close. eapply K; eassumption.
    + apply coord_eq_close in E as [L K]. rewrite H in L, K. rewrite zlen_pick in L.
      apply same_vals_arange; auto. intros k p q Hp Hq. destruct K as [K|K]; [left|right]; eapply K; eassumption.
  - destruct H as (_ & _ & H). destruct G as [Gs _]. unfold noncoord_eq in E. apply andb_true_iff in E as [_ E].
    destruct (list_eq_dec _ _ _) as [E'|]; [|discriminate]. rewrite H in E'.
    apply is_arange; [apply zlen_nonneg|rewrite E', zlen_pick; reflexivity|]. intros k x K.
    pose proof (in_range_elem _ _ _ _ Hl K) as Rx. pose proof (elem_range _ _ _ K) as Rk.
    destruct (IndexProofs.elem_ex (n_rows n) x Rx) as (q & Hq). eapply NoDup_at; [exact Gs|exact Hq|].
    change (elem (n_rows n) k q). rewrite E'. apply elem_pick; [exact Hl|eauto].
  - destruct H as (H1 & H2 & H3 & H4 & H5 & H6 & H7). unfold time_eq in E.
    apply andb_true_iff in E as [E E4]. apply andb_true_iff in E as [E E3]. apply andb_true_iff in E as [E1 E2].
    apply Nat.eqb_eq in E3. unfold records in E4. rewrite H6 in E3, E4. unfold pick in E3. rewrite map_length in E3.
    destruct G as (Gs & Gv & Gk & Gvals & Gnd & Gb).
    apply is_arange; [apply zlen_nonneg|unfold zlen; lia|]. intros k x K.
    pose proof (in_range_elem _ _ _ _ Hl K) as Rx. pose proof (elem_range _ _ _ K) as Rk.
    destruct (IndexProofs.elem_ex (t_dates t) x Rx) as (q & Hq). destruct (IndexProofs.elem_ex (t_dates t) k) as (p & Hp).
    { unfold zlen in *. lia. }
    eapply (NoDup_at (records (t_mask t) t)); [exact Gnd| |].
    + apply (elem_map (project (t_mask t))). exists q. split; [exact Hq|reflexivity].
    + apply (elem_map (project (t_mask t))). exists p. split; [exact Hp|]. symmetry. apply rows_eq.
      * now rewrite !project_len.
      * unfold records in Gb. rewrite Forall_forall in Gb. apply Gb. apply in_map. eapply IndexProofs.elem_In. exact Hq.
      * eapply (Forall2_forallb (fun r s => forallb (fun '(x, y) => zclose x y) (combine r s))).
        -- exact E4.
        -- apply (elem_map (project (t_mask t))). exists p. split; [exact Hp|reflexivity].
        -- apply (elem_map (project (t_mask t))). exists q. split; [|reflexivity]. apply elem_pick; [exact Hl|]. exists x. split; [exact K|exact Hq].
Qed.

Lemma common_keys_self k : common_keys k k = k.
Proof.
  unfold common_keys. assert (forall l, incl l k -> filter (fun x => existsb (Z.eqb x) k) l = l) as H.
  { induction l as [|x l IH]; intros Hi; [reflexivity|]. cbn.
    rewrite (proj2 (existsb_exists (Z.eqb x) k)); [|exists x; split; [apply Hi; now left|apply Z.eqb_refl]].
    f_equal. apply IH. intros y Hy. apply Hi. now right. }
  apply H. apply incl_refl.
Qed.
Lemma pick_keys_self ks r : length r = length ks -> pick_keys ks ks r = r.
Proof.
  intros L. unfold pick_keys.
  assert (forall (kl rl : list Z), incl kl ks -> length rl = length kl -> map snd (filter (fun '(k, _) => existsb (Z.eqb k) ks) (combine kl rl)) = rl) as H.
  { induction kl as [|k kl IH]; intros [|x rl] Hi Hl; try discriminate; [reflexivity|]. cbn.
    rewrite (proj2 (existsb_exists (Z.eqb k) ks)); [|exists k; split; [apply Hi; now left|apply Z.eqb_refl]].
    cbn. f_equal. apply IH; [|now injection Hl]. intros y Hy. apply Hi. now right. }
  apply H; [apply incl_refl|exact L].
Qed.
Lemma zlist_eqb_refl x : zlist_eqb x x = true.
Proof. unfold zlist_eqb. now destruct (list_eq_dec Z.eq_dec x x). Qed.
Lemma zlist_eqb_eq x y : zlist_eqb x y = true <-> x = y.
Proof. unfold zlist_eqb. destruct (list_eq_dec Z.eq_dec x y); split; congruence. Qed.

Lemma row_index_elem rows : NoDup rows -> forall i r, elem rows i r -> row_index rows r = Some i.
Proof.
  induction rows as [|x rows IH]; intros Hnd i r Hi; [now apply IndexProofs.elem_nil in Hi|].
  cbn. inversion Hnd as [|? ? Hn Hnd']; subst. apply IndexProofs.elem_cons in Hi as [[-> ->]|[K Hi]].
  - now rewrite zlist_eqb_refl.
  - destruct (zlist_eqb x r) eqn:E.
    + apply zlist_eqb_eq in E as ->. exfalso. apply Hn. eapply IndexProofs.elem_In. exact Hi.
    + rewrite (IH Hnd' _ _ Hi). f_equal. lia.
Qed.

Lemma sliced_map a l b : good_axis a -> in_range (axis_len a) l -> sliced a l b -> axis_map_to env a b = Some l.
Proof.
  intros G Hl H. destruct a as [c|n|t], b as [c'|n'|t']; cbn [axis_map_to]; try (cbn in H; tauto).
  - assert ((if comparable (c_class c) (axis_class (Coord c'))
       then if axis_eq (Coord c) (Coord c') then Some (arange 0 (zlen (c_vals c)) 1)
            else SortModel.map_to (c_vals c) (axis_vals (Coord c')) (c_rtol c)
       else None) = Some l) as K.
    { assert (axis_class (Coord c') = c_class c) as -> by (cbn in *; tauto). rewrite comparable_refl.
      destruct (axis_eq _ _) eqn:E.
      - f_equal. symmetry. apply (sliced_same (Coord c) l (Coord c') G Hl H). cbn [axis_same]. cbn in E. rewrite E. apply orb_true_r.
      - cbn in H. destruct H as (_ & _ & _ & _ & H & _). cbn [axis_vals]. rewrite H. apply map_to_exact; [apply separated_distinct, G|apply G|exact Hl]. }
    unfold coord_map_to. cbn in H. destruct H as (H1 & _ & H3 & _). rewrite H1, H3, Z.eqb_refl.
    destruct (c_kind c); exact K.
  - unfold noncoord_map_to. cbn in *. destruct H as (H1 & H2 & H3). rewrite H1, H2, H3, prefix_refl, common_keys_self.
    destruct G as (G1 & G2 & G3). destruct (n_keys n) as [|k0 ks] eqn:Ek; [congruence|]. rewrite <- Ek in *.
    assert (forall rows, Forall (fun r => length r = length (n_keys n)) rows -> map (pick_keys (n_keys n) (n_keys n)) rows = rows) as Hp.
    { induction 1 as [|r rows Hr _ IH]; [reflexivity|]. cbn. rewrite IH, pick_keys_self by exact Hr. reflexivity. }
    rewrite (Hp (n_rows n)) by exact G3. rewrite (Hp (pick [] (n_rows n) l)).
    + f_equal. clear - G1 Hl. induction l as [|i l IH]; [reflexivity|]. inversion Hl as [|? ? Hi Hl']; subst. cbn [pick map flat_map].
      rewrite (row_index_elem _ G1 i). 2:{ split; [lia|]. apply nth_error_nth'. unfold zlen in Hi. lia. }
      cbn. f_equal. now apply IH.
    + apply Forall_forall. intros r Hr. apply IndexProofs.In_elem in Hr as (k & Hr). apply elem_pick in Hr as (i & _ & Hr); [|exact Hl].
      rewrite Forall_forall in G3. apply G3. eapply IndexProofs.elem_In. exact Hr.
  - unfold time_map. cbn [sliced] in H. destruct H as (H1 & H2 & H3 & H4 & H5 & H6 & H7). rewrite H1, H5, class_eqb_refl, mask_sub_refl.
    cbn [andb]. pose proof (time_length t G) as HL. destruct G as (Gs & Gv & Gk & Gvals & Gnd & Gb).
    destruct (argsort_take (t_vals t)) as (sv & Esv & Hmono).
    destruct (dates_map_to (t_cal t) (t_start t) (t_units t) (t_mask t) (t_dates t) (t_dates t') (t_vals t) (argsort env (t_vals t)) sv Gs Gv Gk Gvals) as (ind & E & M).
    + destruct Henv as [Ha _]. rewrite <- HL. apply (Ha (t_vals t)).
    + exact Esv.
    + exact Hmono.
    + unfold records. rewrite E. f_equal. rewrite H6, project_pick in M by exact Hl.
      apply (mapped_exact (map (project (t_mask t)) (t_dates t))); [exact Gnd| |exact M].
      unfold zlen. rewrite map_length. exact Hl.
Qed.

Lemma sliced_unrelated a l b c : sliced a l b -> (unrelated c a <-> unrelated c b).
Proof.
  destruct a as [a|a|a], b as [b|b|b]; cbn [sliced]; try tauto.
  - intros (H1 & H2 & H3 & _). destruct c as [c|c|c]; cbn; rewrite ?H1, ?H2, ?H3; tauto.
  - intros (H1 & H2 & _). destruct c as [c|c|c]; cbn; rewrite ?H1, ?H2; tauto.
  - intros (H1 & _ & _ & _ & H5 & _). destruct c as [c|c|c]; cbn; rewrite ?H1, ?H5; tauto.
Qed.

Lemma sliced_unrelated_l a l b c : sliced a l b -> (unrelated a c <-> unrelated b c).
Proof.
  destruct a as [a|a|a], b as [b|b|b]; cbn [sliced]; try tauto.
  - intros (H1 & H2 & H3 & _). destruct c as [c|c|c]; cbn; rewrite ?H1, ?H2, ?H3; tauto.
  - intros (H1 & H2 & _). destruct c as [c|c|c]; cbn; rewrite ?H1, ?H2; tauto.
  - intros (H1 & _ & _ & _ & H5 & _). destruct c as [c|c|c]; cbn; rewrite ?H1, ?H5; tauto.
Qed.

Lemma unrelated_same a b : unrelated a b -> axis_same a b = false.
Proof.
  destruct a as [a|a|a], b as [b|b|b]; cbn [unrelated axis_same]; try reflexivity; intros H.
  - apply orb_false_iff. split.
    + unfold coord_is. destruct (kind_eqb _ _) eqn:E1; [|reflexivity]. destruct (class_eqb _ _) eqn:E2; [|reflexivity].
      apply class_eqb_prefix in E2. destruct (c_kind a), (c_kind b); try discriminate; cbn.
      * unfold comparable in H. now rewrite E2 in H.
      * now apply Z.eqb_neq in H as ->.
      * now apply Z.eqb_neq in H as ->.
    + unfold coord_eq. destruct (c_kind a), (c_kind b); try reflexivity; try (now apply Z.eqb_neq in H as ->).
      unfold comparable in H. apply orb_false_iff in H as [H H']. rewrite H. cbn. unfold is_equivalent, comparable. now rewrite H, H'.
  - unfold noncoord_eq, class_eqb. now rewrite H.
  - unfold time_eq. destruct H as [->|H]; [reflexivity|]. destruct (class_eqb _ _); [|reflexivity].
    destruct (mask_eqb _ _) eqn:E; [|reflexivity]. apply mask_eqb_sub in E. congruence.
Qed.

Lemma unrelated_map a b : unrelated a b -> axis_map_to env a b = None.
Proof.
  destruct a as [a|a|a], b as [b|b|b]; cbn [unrelated axis_map_to]; try reflexivity; intros H.
  - unfold coord_map_to. destruct (c_kind a); [cbn [axis_class]; rewrite H; reflexivity| |];
      (destruct (c_kind b); [reflexivity| |]; apply Z.eqb_neq in H as ->; reflexivity).
  - unfold coord_map_to. destruct (c_kind a); [now rewrite H|reflexivity|reflexivity].
  - unfold coord_map_to. destruct (c_kind a); [now rewrite H|reflexivity|reflexivity].
  - unfold noncoord_map_to. now rewrite H.
  - unfold time_map. destruct H as [-> | ->]; [reflexivity|]. now rewrite andb_false_r.
Qed.

Lemma same_refl a : axis_same a a = true.
Proof.
  destruct a as [c|n|t]; cbn [axis_same].
  - apply orb_true_iff. left. unfold coord_is. rewrite class_eqb_refl, Z.eqb_refl.
    assert (qlist_eqb (c_vals c) (c_vals c) = true) as ->.
    { apply qlist_eqb_elem. split; [reflexivity|]. intros k p q Hp Hq. rewrite (IndexProofs.elem_fun _ _ _ _ Hp Hq). reflexivity. }
    destruct (c_kind c); reflexivity.
  - unfold noncoord_eq. rewrite class_eqb_refl, zlist_eqb_refl. now destruct (list_eq_dec _ _ _).
  - unfold time_eq. rewrite class_eqb_refl, mask_eqb_refl, Nat.eqb_refl. cbn [andb].
    assert (forall r : list Z, forallb (fun '(x, y) => zclose x y) (combine r r) = true) as Hr.
    { induction r as [|x r IH]; [reflexivity|]. cbn. rewrite IH, andb_true_r. apply close_spec, q_close_refl. }
    induction (records (t_mask t) t) as [|r l IH]; [reflexivity|]. cbn [combine forallb]. now rewrite Hr.
Qed.

Lemma pick_NoDup {A} (d : A) v l : NoDup v -> NoDup l -> in_range (zlen v) l -> NoDup (pick d v l).
Proof.
  intros Hv Hl Hr. induction l as [|i l IH]; [constructor|]. inversion Hl; inversion Hr; subst. cbn. constructor; [|now apply IH].
  intros K. apply in_map_iff in K as (j & E & Hj).
  assert (0 <= j < zlen v) as Rj by (match goal with K : Forall _ l |- _ => exact (proj1 (Forall_forall _ _) K j Hj) end).
  enough (i = j) by congruence. unfold zlen in *.
  assert (Z.to_nat i = Z.to_nat j); [|lia]. eapply (proj1 (NoDup_nth v d)); [exact Hv|lia|lia|now symmetry].
Qed.

Lemma sliced_good a l b : good_axis a -> in_range (axis_len a) l -> NoDup l -> sliced a l b -> good_axis b.
Proof.
  destruct a as [c|n|t], b as [c'|n'|t']; cbn [sliced good_axis axis_len]; intros G Hl Hnd H; try tauto.
  - destruct H as (_ & _ & _ & _ & H5 & H6 & H7). destruct G as (G1 & G2 & G3). rewrite H5, H6. split; [|split].
    + intros i j x y Hi Hj Hne. apply elem_pick in Hi as (p & Hp1 & Hp2); [|exact Hl]. apply elem_pick in Hj as (q & Hq1 & Hq2); [|exact Hl].
      apply (G1 p q); auto. intros ->. apply Hne. eapply NoDup_at; eassumption.
    + apply Forall_forall. intros kv Hkv. apply in_map_iff in Hkv as ([k v] & <- & _). cbn. unfold pick. now rewrite !map_length.
    + exact H7.
  - destruct H as (H1 & H2 & H3). destruct G as (G1 & G2 & G3). rewrite H2, H3. split; [|split]; [|exact G2|].
    + apply pick_NoDup; assumption.
    + apply Forall_forall. intros r Hr. apply IndexProofs.In_elem in Hr as (k & Hr). apply elem_pick in Hr as (i & _ & Hr); [|exact Hl].
      rewrite Forall_forall in G3. apply G3. eapply IndexProofs.elem_In. exact Hr.
  - pose proof (time_length t G) as HL. destruct H as (H1 & H2 & H3 & H4 & H5 & H6 & H7). destruct G as (Gs & Gv & Gk & Gvals & Gnd & Gb).
    assert (records (t_mask t') t' = pick [] (records (t_mask t) t) l) as Er.
    { unfold records. rewrite H5, H6. now apply project_pick. }
    assert (in_range (zlen (records (t_mask t) t)) l) as Hl'.
    { unfold records, zlen. rewrite map_length. exact Hl. }
    rewrite H2, H3, H4, Er, H5, H6, H7. split; [exact Gs|]. split; [|split; [exact Gk|split; [|split]]].
    + apply Forall_forall. intros d Hd. apply IndexProofs.In_elem in Hd as (k & Hd). apply elem_pick in Hd as (i & _ & Hd); [|exact Hl].
      rewrite Forall_forall in Gv. apply Gv. eapply IndexProofs.elem_In. exact Hd.
    + unfold pick. rewrite !map_map. apply map_ext_in. intros i Hi. apply (proj1 (Forall_forall _ _) Hl) in Hi.
      set (f := axis_value _ _ _ _) in *. unfold zlen in Hi.
      assert (nth_error (map f (t_dates t)) (Z.to_nat i) = nth_error (map Some (t_vals t)) (Z.to_nat i)) as E by now rewrite Gvals.
      rewrite !nth_error_map in E. rewrite (nth_error_nth' _ date0) in E by lia. rewrite (nth_error_nth' (t_vals t) 0%Q) in E by lia.
      cbn in E. injection E as E. exact E.
    + apply pick_NoDup; assumption.
    + apply Forall_forall. intros r Hr. apply IndexProofs.In_elem in Hr as (k & Hr). apply elem_pick in Hr as (i & _ & Hr); [|exact Hl'].
      rewrite Forall_forall in Gb. apply Gb. eapply IndexProofs.elem_In. exact Hr.
Qed.

(** map_to between two time axes whose fields include those of the first *)
Lemma time_axis_map_to s t : good_axis (Time s) -> t_class s = t_class t -> mask_sub (t_mask s) (t_mask t) = true ->
  exists ind, axis_map_to env (Time s) (Time t) = Some ind /\
    TimeSearchSpec.mapped (map (project (t_mask s)) (t_dates s)) (map (project (t_mask s)) (t_dates t)) ind.
Proof.
  intros G Hc Hm. cbn [axis_map_to]. unfold time_map. rewrite Hc, class_eqb_refl, Hm. cbn [andb].
  pose proof (time_length s G) as HL. destruct G as (Gs & Gv & Gk & Gvals & Gnd & Gb).
  destruct (argsort_take (t_vals s)) as (sv & Esv & Hmono).
  apply (dates_map_to (t_cal s) (t_start s) (t_units s) (t_mask s) (t_dates s) (t_dates t) (t_vals s) (argsort env (t_vals s)) sv Gs Gv Gk Gvals).
  - destruct Henv as [Ha _]. rewrite <- HL. apply (Ha (t_vals s)).
  - exact Esv.
  - exact Hmono.
Qed.
End Env.
