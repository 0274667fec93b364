(** Facts about domains. *)
From Coq Require Import ZArith List Bool String Sorted Permutation Lia.
From Verif Require Import DomainModel DomainSpec.
Import ListNotations.
Open Scope Z_scope.

(** ** sets of numbers *)
Lemma member_In x l : member x l = true <-> In x l.
Proof. unfold member. rewrite existsb_exists. split; [intros (y & H & E); apply Z.eqb_eq in E; now subst | intros H; exists x; split; [exact H | apply Z.eqb_refl]]. Qed.
Lemma insert_In x y l : In y (insert x l) <-> y = x \/ In y l.
Proof.
  induction l as [|z l IH]; cbn; [intuition|]. destruct (Z.ltb_spec x z); [cbn; intuition|]. destruct (Z.eqb_spec x z) as [->|N]; cbn; [intuition|]. rewrite IH. intuition.
Qed.
Lemma insert_sorted x l : StronglySorted Z.lt l -> StronglySorted Z.lt (insert x l).
Proof.
  induction 1 as [|z l S IH F]; cbn; [repeat constructor|]. destruct (Z.ltb_spec x z).
  - constructor; [constructor; assumption|]. constructor; [assumption|]. rewrite Forall_forall in *. intros y Hy. specialize (F y Hy). lia.
  - destruct (Z.eqb_spec x z) as [->|N]; [constructor; assumption|]. constructor; [exact IH|]. rewrite Forall_forall in *. intros y Hy. apply insert_In in Hy as [->|Hy]; [lia | now apply F].
Qed.
Lemma union_In x a b : In x (union a b) <-> In x a \/ In x b.
Proof. unfold union. induction a as [|y a IH]; cbn; [tauto|]. rewrite insert_In, IH. intuition. Qed.
Lemma union_sorted a b : StronglySorted Z.lt b -> StronglySorted Z.lt (union a b).
Proof. intros H. unfold union. induction a; cbn; [exact H | now apply insert_sorted]. Qed.
Lemma inter_In x a b : In x (inter a b) <-> In x a /\ In x b.
Proof. unfold inter. rewrite filter_In, member_In. tauto. Qed.
Lemma filter_sorted f l : StronglySorted Z.lt l -> StronglySorted Z.lt (filter f l).
Proof.
  induction 1 as [|z l S IH F]; cbn; [constructor|]. destruct (f z); [|exact IH]. constructor; [exact IH|]. rewrite Forall_forall in *. intros y Hy. apply filter_In in Hy as [Hy _]. now apply F.
Qed.
Lemma subset_spec a b : subset a b = true <-> forall x, In x a -> In x b.
Proof.
  unfold subset. rewrite forallb_forall. split; intros H x Hx; [now apply member_In, H | apply member_In; now apply H].
Qed.
Lemma sorted_ext a b : StronglySorted Z.lt a -> StronglySorted Z.lt b -> (forall x, In x a <-> In x b) -> a = b.
Proof.
  intros Sa. revert b. induction Sa as [|x a Sa IH F]; intros b Sb H.
  - destruct b as [|y b]; [reflexivity|]. exfalso. apply (H y). now left.
  - destruct Sb as [|y b Sb G]; [exfalso; apply (H x); now left|]. rewrite Forall_forall in F, G.
    assert (x = y).
    { assert (Hx : In x (y :: b)) by (apply H; now left). assert (Hy : In y (x :: a)) by (apply H; now left).
      destruct Hx as [->|Hx]; [reflexivity|]. destruct Hy as [->|Hy]; [reflexivity|]. specialize (F y Hy). specialize (G x Hx). lia. }
    subst y. f_equal. apply IH; [exact Sb|]. intros z. split; intros Hz.
    + assert (K : In z (x :: b)) by (apply H; now right). destruct K as [->|K]; [specialize (F z Hz); lia | exact K].
    + assert (K : In z (x :: a)) by (apply H; now right). destruct K as [->|K]; [specialize (G z Hz); lia | exact K].
Qed.

(** ** places *)
Lemma which_nth s l i : which_axis s l = Some i -> nth_error l i = Some s.
Proof.
  revert i. induction l as [|x l IH]; intros i; cbn; [discriminate|]. destruct (String.eqb_spec s x) as [->|N]; [intros E; injection E as <-; reflexivity|].
  destruct (which_axis s l) as [j|]; [|discriminate]. cbn. intros E. injection E as <-. cbn. now apply IH.
Qed.
Lemma which_none s l : which_axis s l = None <-> ~ In s l.
Proof.
  induction l as [|x l IH]; cbn; [tauto|]. destruct (String.eqb_spec s x) as [->|N]; [split; [discriminate | tauto]|].
  destruct (which_axis s l) as [j|]; cbn; split; try discriminate; try tauto.
  - intros H. exfalso. apply H. right. destruct (in_dec string_dec s l) as [I|I]; [exact I|]. apply IH in I. discriminate.
  - intros _ [H|H]; [now symmetry in H | now apply IH].
Qed.
Lemma nth_which s l i : NoDup l -> nth_error l i = Some s -> which_axis s l = Some i.
Proof.
  intros N H. destruct (which_axis s l) as [j|] eqn:E.
  - apply which_nth in E. f_equal. apply (proj1 (NoDup_nth_error l) N); [|congruence]. apply nth_error_Some. congruence.
  - exfalso. apply which_none in E. apply E. now apply nth_error_In in H.
Qed.
Lemma put_length {A} (l : list A) i v : List.length (put l i v) = List.length l.
Proof. revert i. induction l; intros [|i]; cbn; auto. Qed.
Lemma put_same {A} (l : list A) i v : (i < List.length l)%nat -> nth_error (put l i v) i = Some v.
Proof. revert i. induction l; intros [|i] H; cbn in *; try lia; [reflexivity|]. apply IHl. lia. Qed.
Lemma put_other {A} (l : list A) i j v : i <> j -> nth_error (put l i v) j = nth_error l j.
Proof. revert i j. induction l; intros [|i] [|j] H; cbn; try congruence; try reflexivity. apply IHl. lia. Qed.
Lemma put_map {A B} (f : A -> B) l i v : map f (put l i v) = put (map f l) i (f v).
Proof. revert i. induction l; intros [|i]; cbn; [reflexivity..|]. now rewrite IHl. Qed.
Lemma put_put {A} (l : list A) i v w : put (put l i v) i w = put l i w.
Proof. revert i. induction l; intros [|i]; cbn; [reflexivity..|]. now rewrite IHl. Qed.
Lemma Forall_put {A} (P : A -> Prop) l i v : Forall P l -> P v -> Forall P (put l i v).
Proof. intros H Hv. revert i. induction H; intros [|i]; cbn; constructor; auto. Qed.
Lemma axis_values_nth d s v : axis_values d s = Some v -> exists i, nth_error (d_names d) i = Some s /\ nth_error (d_values d) i = Some v.
Proof. unfold axis_values. destruct (which_axis s (d_names d)) as [i|] eqn:E; [|discriminate]. intros H. exists i. split; [now apply which_nth | exact H]. Qed.
Lemma nth_axis_values d s v i : NoDup (d_names d) -> nth_error (d_names d) i = Some s -> nth_error (d_values d) i = Some v -> axis_values d s = Some v.
Proof. intros N H1 H2. unfold axis_values. now rewrite (nth_which _ _ _ N H1). Qed.

(** ** the names *)
Lemma insert_down_In x y l : In y (insert_down x l) <-> y = x \/ In y l.
Proof. induction l as [|z l IH]; cbn; [intuition|]. destruct (pair_leb z x); cbn; [intuition|]. rewrite IH. intuition. Qed.
Lemma has_In s l : has s l = true <-> In s l.
Proof. unfold has. rewrite existsb_exists. split; [intros (y & H & E); apply String.eqb_eq in E; now subst | intros H; exists s; split; [exact H | apply String.eqb_refl]]. Qed.
Lemma axis_names_In s ds : In s (axis_names ds) <-> exists d, In d ds /\ In s (d_names d).
Proof.
  unfold axis_names.
  set (pairs := fold_right insert_down [] (flat_map (fun d => numbered (d_names d)) ds)).
  assert (P : forall q, In q pairs <-> exists d, In d ds /\ In q (numbered (d_names d))).
  { intros q. unfold pairs. rewrite <- in_flat_map. generalize (flat_map (fun d => numbered (d_names d)) ds). induction l as [|x l IH]; cbn; [tauto|]. rewrite insert_down_In, IH. intuition. }
  clearbody pairs.
  assert (F : forall l0, In s (fold_left (fun l p => if has (snd p) l then l else l ++ [snd p]) pairs l0) <-> In s l0 \/ exists q, In q pairs /\ snd q = s).
  { clear P. induction pairs as [|q pairs IH]; intros l0; cbn [fold_left]; [split; [tauto | intros [H|(q & [] & _)]; exact H]|]. rewrite IH. cbn [In].
    destruct (has (snd q) l0) eqn:E.
    - apply has_In in E. split; [intros [H|(x & H & K)]; eauto | intros [H|(x & [H|H] & K)]; [auto | subst; auto | eauto]].
    - rewrite in_app_iff. cbn. split; [intros [[H|[H|[]]]|(x & H & K)]; eauto | intros [H|(x & [H|H] & K)]; [auto | subst; auto | eauto]]. }
  assert (G : (exists q, In q pairs /\ snd q = s) <-> exists d, In d ds /\ In s (d_names d)).
  { split.
    - intros (q & H & <-). apply P in H as (d & Hd & H). exists d. split; [exact Hd|]. unfold numbered in H. destruct q as [i x]. now apply in_combine_r in H.
    - intros (d & Hd & H). apply In_nth_error in H as [i H]. exists (i, s). split; [|reflexivity]. apply P. exists d. split; [exact Hd|]. unfold numbered.
      assert (L : (i < List.length (d_names d))%nat) by (apply nth_error_Some; congruence).
      apply (nth_error_In _ i).
      assert (K : forall names a i, nth_error names i = Some s -> nth_error (combine (seq a (List.length names)) names) i = Some ((a + i)%nat, s)).
      { clear. induction names as [|x names IH]; intros a [|i] H; cbn in *; try discriminate; [injection H as ->; rewrite Nat.add_0_r; reflexivity|]. rewrite (IH (S a) i H). f_equal. f_equal. lia. }
      exact (K (d_names d) 0%nat i H). }
  rewrite <- G. set (names := rev (fold_left _ pairs [])).
  assert (N : In s names <-> exists q, In q pairs /\ snd q = s) by (unfold names; rewrite <- in_rev, F; cbn; tauto).
  rewrite <- N. destruct (has "time" names) eqn:E; [|tauto]. apply has_In in E. cbn. rewrite filter_In. destruct (String.eqb_spec s "time") as [->|Ne]; cbn; intuition congruence.
Qed.

(** ** aggregation *)
Lemma distinct_In d ds : In d (distinct ds) <-> In d ds.
Proof. apply nodup_In. Qed.
Lemma add_bin_In g v bins h vs : In (h, vs) (add_bin g v bins) -> In (h, vs) bins \/ h = g /\ (vs = [v] \/ exists ws, vs = v :: ws /\ In (h, ws) bins).
Proof.
  induction bins as [|[k ws] bins IH]; cbn; [intros [H|[]]; injection H as <- <-; auto|]. destruct (group_dec g k) as [->|N]; cbn.
  - intros [H|H]; [injection H as <- <-; right; split; [reflexivity|]; right; eauto | auto].
  - intros [H|H]; [auto|]. destruct (IH H) as [K|(-> & [-> |(xs & -> & K)])]; [auto | auto | right; split; [reflexivity | right; eauto]].
Qed.
Lemma add_bin_keeps g v bins h vs : In (h, vs) bins -> exists ws, In (h, ws) (add_bin g v bins) /\ incl vs ws.
Proof.
  induction bins as [|[k xs] bins IH]; cbn; [tauto|]. destruct (group_dec g k) as [->|N]; cbn.
  - intros [H|H]; [injection H as <- <-; exists (v :: xs); split; [auto | intros y Hy; now right] | exists vs; split; [auto | apply incl_refl]].
  - intros [H|H]; [exists vs; split; [auto | apply incl_refl]|]. destruct (IH H) as (ws & H1 & H2). eauto.
Qed.
Lemma add_bin_has g v bins : exists ws, In (g, ws) (add_bin g v bins) /\ In v ws.
Proof.
  induction bins as [|[k xs] bins IH]; cbn; [exists [v]; cbn; auto|]. destruct (group_dec g k) as [->|N]; cbn; [exists (v :: xs); cbn; auto|].
  destruct IH as (ws & H1 & H2). eauto.
Qed.
Definition from_bin (ds : list domain) (s : string) (g : group) (v : list Z) : Prop :=
  exists d i, In d ds /\ which_axis s (d_names d) = Some i /\ nth_error (d_values d) i = Some v /\ g = without_axis d i.
Lemma bins_spec ds s :
  (forall g vs, In (g, vs) (bins_of ds s) -> vs <> [] /\ forall v, In v vs -> from_bin ds s g v) /\
  (forall g v, from_bin ds s g v -> exists vs, In (g, vs) (bins_of ds s) /\ In v vs).
Proof.
  unfold bins_of. set (stepf := fun bins d => _).
  assert (G : forall ds acc done, 
    (forall g vs, In (g, vs) acc -> vs <> [] /\ forall v, In v vs -> from_bin done s g v) ->
    (forall g v, from_bin done s g v -> exists vs, In (g, vs) acc /\ In v vs) ->
    (forall g vs, In (g, vs) (fold_left stepf ds acc) -> vs <> [] /\ forall v, In v vs -> from_bin (done ++ ds) s g v) /\
    (forall g v, from_bin (done ++ ds) s g v -> exists vs, In (g, vs) (fold_left stepf ds acc) /\ In v vs)).
  { clear ds. induction ds as [|d ds IH]; intros acc done H1 H2; cbn [fold_left]; [rewrite app_nil_r; auto|].
    replace (done ++ d :: ds) with ((done ++ [d]) ++ ds) by now rewrite <- app_assoc.
    assert (Mono : forall g v, from_bin done s g v -> from_bin (done ++ [d]) s g v) by (intros g v (d' & i & K & K'); exists d', i; split; [apply in_or_app; auto | exact K']).
    apply IH; unfold stepf at 1.
    - destruct (which_axis s (d_names d)) as [i|] eqn:Ei; [destruct (nth_error (d_values d) i) as [v0|] eqn:Ev|].
      + intros g vs H. assert (B : from_bin (done ++ [d]) s (without_axis d i) v0) by (exists d, i; rewrite in_app_iff; cbn; auto).
        apply add_bin_In in H as [H|(-> & [-> |(ws & -> & H)])].
        * destruct (H1 g vs H) as [Q1 Q2]. split; [exact Q1|]. intros v Hv. auto.
        * split; [discriminate|]. intros v [<-|[]]. exact B.
        * split; [discriminate|]. intros v [<-|Hv]; [exact B|]. apply Mono. now apply (H1 _ ws H).
      + intros g vs H. destruct (H1 g vs H) as [Q1 Q2]. auto.
      + intros g vs H. destruct (H1 g vs H) as [Q1 Q2]. auto.
    - intros g v (d' & i' & Hd & Hi & Hv & Hg). apply in_app_or in Hd as [Hd|[<-|[]]].
      + destruct (H2 g v) as (vs & Q1 & Q2); [exists d', i'; auto|]. unfold stepf.
        destruct (which_axis s (d_names d)) as [i|]; [destruct (nth_error (d_values d) i) as [v0|]|]; eauto.
        destruct (add_bin_keeps (without_axis d i) v0 acc g vs Q1) as (ws & W1 & W2). exists ws. auto.
      + unfold stepf. rewrite Hi, Hv. subst g. apply add_bin_has. }
  destruct (G ds [] []) as [G1 G2]; [intros g vs [] | intros g v (d & i & [] & _)|]. auto.
Qed.
Lemma union_all_In x vs : In x (fold_right union [] vs) <-> exists v, In v vs /\ In x v.
Proof.
  induction vs as [|v vs IH]; cbn [fold_right]; [split; [intros [] | intros (v & [] & _)]|]. rewrite union_In, IH. split.
  - intros [H|(w & H & K)]; [exists v | exists w]; split; auto; [now left | now right].
  - intros (w & [->|H] & K); eauto.
Qed.
Lemma union_all_sorted vs : StronglySorted Z.lt (fold_right union [] vs).
Proof. induction vs; cbn; [constructor | now apply union_sorted]. Qed.
(** what aggregation makes of a group *)
Lemma with_without d i s v : which_axis s (d_names d) = Some i -> with_axis (without_axis d i) s v = Some (Domain (d_names d) (put (d_values d) i v)).
Proof.
  intros H. unfold with_axis, without_axis. cbn [fst snd]. rewrite H. f_equal. f_equal. rewrite put_put. rewrite put_map. rewrite map_map. now rewrite map_id.
Qed.
Lemma aggregate_In ds s d : In d (aggregate ds s) -> In d ds \/ exists d0 i vs, In d0 ds /\ which_axis s (d_names d0) = Some i /\ (exists v0, nth_error (d_values d0) i = Some v0) /\
   d = Domain (d_names d0) (put (d_values d0) i (fold_right union [] vs)) /\ forall v, In v vs -> from_bin ds s (without_axis d0 i) v.
Proof.
  unfold aggregate. rewrite distinct_In, in_app_iff, filter_In, in_flat_map. intros [[H _]|([g vs] & H1 & H2)]; [auto|]. right.
  destruct (proj1 (bins_spec ds s) g vs H1) as [N B]. destruct vs as [|v vs]; [congruence|]. destruct (B v) as (d0 & i & Hd & Hi & Hv & ->); [now left|].
  rewrite (with_without d0 i s _ Hi) in H2. destruct H2 as [<-|[]]. exists d0, i, (v :: vs). eauto 6.
Qed.
Lemma same_group d0 d1 i0 i1 s : which_axis s (d_names d0) = Some i0 -> which_axis s (d_names d1) = Some i1 -> without_axis d0 i0 = without_axis d1 i1 ->
  d_names d0 = d_names d1 /\ i0 = i1 /\ forall v, put (d_values d0) i0 v = put (d_values d1) i1 v.
Proof.
  intros H0 H1 E. unfold without_axis in E. injection E as E1 E2. split; [exact E1|]. rewrite E1 in H0. assert (i0 = i1) by congruence. subst i1. split; [reflexivity|]. intros v.
  pose proof (f_equal (fun l => map (fun o => match o with Some x => x | None => v end) l) E2) as E3. rewrite !put_map, !map_map in E3. cbn in E3. now rewrite !map_id in E3.
Qed.

(** ** the invariant: what a domain claims is in the files *)
Section Pieces.
Context (pieces : list domain).
Definition known (d : domain) : Prop :=
  proper d /\ In (d_names d) (map d_names pieces) /\
  forall p, within p d -> exists e, In e pieces /\ within p e /\ incl (d_names e) (d_names d).
Lemma piece_known e : In e pieces -> proper e -> known e.
Proof. intros H P. split; [exact P|]. split; [now apply in_map|]. intros p Hp. exists e. split; [exact H|]. split; [exact Hp | apply incl_refl]. Qed.

Lemma aggregate_known ds s : (forall d, In d ds -> known d) -> forall d, In d (aggregate ds s) -> known d.
Proof.
  intros K d Hd. destruct (aggregate_In ds s d Hd) as [H|(d0 & i & vs & Hd0 & Hi & (v0 & Hv0) & -> & B)]; [now apply K|].
  destruct (K d0 Hd0) as ((N & L & S) & Nm & Cov). split; [|split].
  - split; [exact N|]. split; [cbn; now rewrite put_length|]. cbn. apply Forall_put; [exact S | apply union_all_sorted].
  - exact Nm.
  - intros p Hp. cbn [d_names].
    assert (Li : (i < List.length (d_values d0))%nat) by (apply nth_error_Some; congruence).
    pose proof (which_nth _ _ _ Hi) as Ni. pose proof (Hp i s (fold_right union [] vs) Ni) as Hs. cbn [d_values] in Hs. rewrite put_same in Hs by exact Li. specialize (Hs eq_refl).
    apply union_all_In in Hs as (v & Hv & Hx). destruct (B v Hv) as (d1 & i1 & Hd1 & Hi1 & Hv1 & Eg).
    destruct (same_group d0 d1 i i1 s Hi Hi1 Eg) as (En & <- & Ep).
    assert (W : within p d1).
    { intros j s' w Hj Hw. destruct (Nat.eq_dec i j) as [<-|Nj].
      - assert (s' = s) by (apply which_nth in Hi1; congruence). assert (w = v) by congruence. subst. exact Hx.
      - apply (Hp j s' w); cbn [d_names d_values]; [congruence|]. rewrite Ep, put_other by exact Nj. exact Hw. }
    destruct (K d1 Hd1) as (_ & _ & Cov1). destruct (Cov1 p W) as (e & He & We & Ie). exists e. split; [exact He|]. split; [exact We|]. now rewrite En.
Qed.
Lemma prime_known ds : (forall d, In d ds -> known d) -> forall d, In d (prime_domains ds) -> known d.
Proof. unfold prime_domains. generalize (axis_names ds) as l. intros l. revert ds. induction l as [|s l IH]; intros ds K; cbn [fold_left]; [exact K|]. apply IH. now apply aggregate_known. Qed.

Lemma put_nth {A} (l : list A) i v j w : nth_error (put l i v) j = Some w -> (i = j /\ w = v /\ (i < List.length l)%nat) \/ (i <> j /\ nth_error l j = Some w).
Proof.
  intros H. destruct (Nat.eq_dec i j) as [->|N].
  - left. assert (Lj : (j < List.length (put l j v))%nat) by (apply nth_error_Some; congruence). rewrite put_length in Lj. rewrite put_same in H by exact Lj. split; [reflexivity|]. split; [congruence | exact Lj].
  - right. rewrite put_other in H by exact N. auto.
Qed.
Lemma nth_combine {A B} (a : list A) (b : list B) j x y : nth_error a j = Some x -> nth_error b j = Some y -> nth_error (combine a b) j = Some (x, y).
Proof. revert b j. induction a as [|a0 a IH]; intros [|b0 b] [|j] H1 H2; cbn in *; try discriminate; [congruence | now apply IH]. Qed.
Lemma zip_nth d1 d2 f j s v1 : nth_error (d_names d1) j = Some s -> nth_error (d_values d1) j = Some v1 -> nth_error (zip d1 d2 f) j = Some (f v1 (other_values d2 s v1)).
Proof. intros H1 H2. unfold zip. now rewrite nth_error_map, (nth_combine _ _ _ _ _ H1 H2). Qed.
Lemma zip_length d1 d2 f : proper d1 -> List.length (zip d1 d2 f) = List.length (d_values d1).
Proof. intros (_ & L & _). unfold zip. rewrite map_length, combine_length. lia. Qed.
Lemma other_sorted d2 s v1 : proper d2 -> StronglySorted Z.lt v1 -> StronglySorted Z.lt (other_values d2 s v1).
Proof.
  intros (_ & _ & S) S1. unfold other_values. destruct (axis_values d2 s) as [v|] eqn:E; [|exact S1]. apply axis_values_nth in E as (i & _ & E). apply nth_error_In in E. now apply (proj1 (Forall_forall _ _) S).
Qed.
Lemma merge_In d1 d2 d : proper d1 -> In d (merge_into d1 d2) -> exists i s v1, nth_error (d_names d1) i = Some s /\ nth_error (d_values d1) i = Some v1 /\
  d = Domain (d_names d1) (put (zip d1 d2 inter) i (union v1 (other_values d2 s v1))) /\ useful d1 d2 i = true /\ existsb is_empty (d_values d) = false.
Proof.
  intros (N & L & S). unfold merge_into. destruct (Nat.ltb 1 _); [intros []|]. rewrite in_flat_map. intros (i & H1 & H2). apply filter_In in H1 as [H1 U]. apply in_seq in H1.
  assert (Ln : (i < List.length (d_names d1))%nat) by lia. assert (Lv : (i < List.length (d_values d1))%nat) by lia.
  destruct (nth_error (d_names d1) i) as [s|] eqn:Es; [|apply nth_error_None in Es; lia]. destruct (nth_error (d_values d1) i) as [v1|] eqn:Ev; [|apply nth_error_None in Ev; lia].
  rewrite (zip_nth d1 d2 union i s v1 Es Ev) in H2. destruct (existsb is_empty _) eqn:Ex; [destruct H2|]. destruct H2 as [<-|[]]. exists i, s, v1. auto.
Qed.
Lemma merge_into_known d1 d2 : known d1 -> known d2 -> incl (d_names d2) (d_names d1) -> forall d, In d (merge_into d1 d2) -> known d.
Proof.
  intros (P1 & Nm & Cov1) (P2 & _ & Cov2) Inc d Hd. destruct (merge_In d1 d2 d P1 Hd) as (i & s & v1 & Es & Ev & -> & _).
  pose proof P1 as (N & L & S). split; [|split].
  - split; [exact N|]. cbn [d_values d_names]. split; [rewrite put_length, zip_length by exact P1; exact L|]. apply Forall_put.
    + unfold zip. apply Forall_forall. intros w Hw. apply in_map_iff in Hw as ([s' v'] & <- & Hw). apply in_combine_r in Hw. apply filter_sorted. now apply (proj1 (Forall_forall _ _) S).
    + apply union_sorted. apply other_sorted; [exact P2|]. apply nth_error_In in Ev. now apply (proj1 (Forall_forall _ _) S).
  - exact Nm.
  - intros p Hp. cbn [d_names].
    assert (Li : (i < List.length (zip d1 d2 inter))%nat) by (rewrite zip_length by exact P1; apply nth_error_Some; congruence).
    assert (Hu : In (p s) (union v1 (other_values d2 s v1))) by (apply (Hp i s); [exact Es | cbn [d_values]; now apply put_same]).
    assert (Hi : forall j s' w, j <> i -> nth_error (d_names d1) j = Some s' -> nth_error (d_values d1) j = Some w -> In (p s') w /\ In (p s') (other_values d2 s' w)).
    { intros j s' w Nj H1 H2. apply inter_In. apply (Hp j s'); [exact H1|]. cbn [d_values]. rewrite put_other by auto. now apply zip_nth. }
    apply union_In in Hu as [Hu|Hu].
    + destruct (Cov1 p) as (e & He & We & Ie); [|eauto]. intros j s' w H1 H2. destruct (Nat.eq_dec j i) as [->|Nj].
      * assert (s' = s) by congruence. assert (w = v1) by congruence. now subst.
      * now apply (Hi j s' w Nj H1 H2).
    + destruct (Cov2 p) as (e & He & We & Ie).
      * intros j s' w H1 H2. destruct P2 as (N2 & _).
        assert (A2 : axis_values d2 s' = Some w) by (now apply (nth_axis_values d2 s' w j)).
        assert (In s' (d_names d1)) as I1 by (apply Inc; now apply nth_error_In in H1). apply In_nth_error in I1 as [j1 I1].
        assert (Lj : (j1 < List.length (d_values d1))%nat) by (rewrite L; apply nth_error_Some; congruence).
        destruct (nth_error (d_values d1) j1) as [w1|] eqn:Ew1; [|apply nth_error_None in Ew1; lia].
        destruct (Nat.eq_dec j1 i) as [->|Nj].
        -- assert (s' = s) by congruence. subst s'. assert (w1 = v1) by congruence. subst w1. unfold other_values in Hu. now rewrite A2 in Hu.
        -- destruct (Hi j1 s' w1 Nj I1 Ew1) as [_ Q]. unfold other_values in Q. now rewrite A2 in Q.
      * exists e. split; [exact He|]. split; [exact We|]. eapply incl_tran; eassumption.
Qed.
Lemma merge_incl d1 d2 : axis_names [d1] = axis_names [d1; d2] -> incl (d_names d2) (d_names d1).
Proof.
  intros E s Hs. assert (K : In s (axis_names [d1; d2])) by (apply axis_names_In; exists d2; cbn; auto). rewrite <- E in K. apply axis_names_In in K as (d & [<-|[]] & K). exact K.
Qed.
Lemma merge_incl2 d1 d2 : axis_names [d2] = axis_names [d1; d2] -> incl (d_names d1) (d_names d2).
Proof.
  intros E s Hs. assert (K : In s (axis_names [d1; d2])) by (apply axis_names_In; exists d1; cbn; auto). rewrite <- E in K. apply axis_names_In in K as (d & [<-|[]] & K). exact K.
Qed.
Lemma same_names_eq a b : same_names a b = true <-> a = b.
Proof. unfold same_names. destruct (list_eq_dec string_dec a b); split; congruence. Qed.
Lemma merge_known d1 d2 : known d1 -> known d2 -> forall d, In d (merge_domains d1 d2) -> known d.
Proof.
  intros K1 K2 d. unfold merge_domains. destruct (same_names (axis_names [d1]) _) eqn:E1; [|destruct (same_names (axis_names [d2]) _) eqn:E2].
  - apply same_names_eq in E1. apply merge_into_known; auto. now apply merge_incl.
  - apply same_names_eq in E2. apply merge_into_known; auto. now apply merge_incl2.
  - intros [].
Qed.
Lemma round_In ds merged d : In d (merge_round ds merged) -> ~ In d merged /\ exists d1 d2, In d1 ds /\ In d2 merged /\ In d (merge_domains d1 d2).
Proof.
  unfold merge_round, minus. rewrite distinct_In, filter_In, in_flat_map. intros [(d1 & H1 & H2) H3]. apply in_flat_map in H2 as (d2 & H2 & H4).
  split; [unfold mem_domain in H3; destruct (in_dec domain_dec d merged); [discriminate | assumption]|]. exists d1, d2. destruct (domain_dec d1 d2); [destruct H4 | auto].
Qed.
Lemma loop_known fuel ds : (forall d, In d ds -> known d) -> forall merged m, (forall d, In d merged -> known d) -> merge_loop fuel ds merged = Some m ->
  (forall d, In d m -> known d) /\ incl merged m.
Proof.
  intros K. induction fuel as [|f IH]; intros merged m Km; cbn [merge_loop]; [discriminate|].
  destruct (merge_round ds merged) as [|x new] eqn:E; [intros H; injection H as <-; split; [exact Km | apply incl_refl]|]. intros H. apply IH in H as [H1 H2].
  - split; [exact H1|]. intros d Hd. apply H2. apply in_or_app. auto.
  - intros d Hd. apply in_app_or in Hd as [Hd|Hd]; [now apply Km|]. rewrite <- E in Hd. apply round_In in Hd as (_ & d1 & d2 & H1 & H2 & H3). apply (merge_known d1 d2); auto.
Qed.
Lemma merge_all_known fuel ds m : (forall d, In d ds -> known d) -> merge_all fuel ds = Some m -> (forall d, In d m -> known d) /\ incl ds m.
Proof.
  intros K. unfold merge_all. destruct (merge_loop fuel ds ds) as [l|] eqn:E; [|discriminate]. cbn. intros H. injection H as <-.
  destruct (loop_known fuel ds K ds l K E) as [H1 H2]. split.
  - intros d Hd. rewrite distinct_In in Hd. apply in_app_or in Hd as [Hd|Hd]; auto.
  - intros d Hd. apply distinct_In. apply in_or_app. auto.
Qed.
Lemma cleanup_In ds d : In d (cleanup ds) -> In d ds.
Proof. unfold cleanup. rewrite filter_In. tauto. Qed.
Lemma domains_known fuel inner ds m : (forall d, In d ds -> known d) -> domains_loop fuel inner ds = Some m -> forall d, In d m -> known d.
Proof.
  revert ds. induction fuel as [|f IH]; intros ds K; cbn [domains_loop]; [discriminate|]. destruct (merge_all inner ds) as [l|] eqn:E; [|discriminate].
  destruct (merge_all_known inner ds l K E) as [H1 _]. assert (Kc : forall d, In d (cleanup l) -> known d) by (intros d Hd; apply H1; now apply cleanup_In).
  cbv zeta. destruct (Nat.eqb _ _); [intros H; injection H as <-; exact Kc | apply IH; exact Kc].
Qed.
End Pieces.
