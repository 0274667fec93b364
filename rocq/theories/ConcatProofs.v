From Coq Require Import ZArith List Bool Lia QArith_base.
From Verif Require Import CalModel TimeSearchModel TimeSearchSpec SortSpec IndexModel IndexSpec IndexProofs ArrModel ArrProofs ViewModel ViewSpec ViewProofs
     AxisModel AxisSpec AxisProofs VarOpsModel VarOpsSpec VarOpsProofs ReduceModel ReduceSpec ChunkProofs LoopProofs RespondProofs UfuncSpec UfuncProofs UfuncView
     StencilModel StencilProofs DiffProofs IntgrProofs ConcatModel ConcatSpec.
Import ListNotations.
Open Scope Z_scope.

(** *** index lists *)
Lemma Forall2_cons_iff {A B} (R : A -> B -> Prop) a b l l' : Forall2 R (a :: l) (b :: l') <-> R a b /\ Forall2 R l l'.
Proof. split; [intros H; inversion H; auto|intros [H1 H2]; now constructor]. Qed.
Lemma zlen_nil {A} (l : list A) : zlen l = 0 -> l = [].
Proof. unfold zlen. destruct l; [reflexivity|cbn; lia]. Qed.
Definition part (o n : Z) (l : list Z) : list Z := map (fun k => k - o) (filter (fun k => (o <=? k) && (k <? o + n)) l).
Lemma elem_arange1 s e k x : elem (arange s e 1) k x <-> x = s + k /\ 0 <= k < e - s.
Proof.
  split.
  - intros H. pose proof (elem_range _ _ _ H) as Hr. destruct (Z.le_gt_cases e s) as [L|L]; [rewrite arange_none in H by exact L; now apply elem_nil in H|].
    rewrite zlen_arange1 in Hr by lia. pose proof (elem_znth (arange s e 1) k) as K. rewrite zlen_arange1 in K by lia. specialize (K Hr).
    rewrite znth_arange1 in K by exact Hr. split; [|exact Hr]. eapply elem_fun; eassumption.
  - intros [-> Hr]. rewrite <- (znth_arange1 s e k Hr). apply elem_znth. rewrite zlen_arange1; lia.
Qed.
Lemma NoDup_arange1 s e : NoDup (arange s e 1).
Proof.
  apply increasing_NoDup. intros i j x y Hx Hy L. apply elem_arange1 in Hx, Hy. lia.
Qed.
Lemma pos_part o n l : 0 <= n -> flat_map (pos (arange o (o + n) 1)) l = part o n l.
Proof.
  intros Hn. unfold part. induction l as [|k l IH]; [reflexivity|]. cbn [flat_map filter]. rewrite IH.
  destruct (Z.leb_spec o k); destruct (Z.ltb_spec k (o + n)); cbn [andb map].
  - rewrite (pos_elem _ k (k - o)); [reflexivity|apply NoDup_arange1|]. apply elem_arange1. lia.
  - rewrite pos_none; [reflexivity|]. rewrite In_arange1. lia.
  - rewrite pos_none; [reflexivity|]. rewrite In_arange1. lia.
  - rewrite pos_none; [reflexivity|]. rewrite In_arange1. lia.
Qed.
Lemma part_range o n l : in_range n (part o n l).
Proof.
  unfold part, in_range. apply Forall_forall. intros x Hx. apply in_map_iff in Hx as (k & <- & Hk). apply filter_In in Hk as [_ Hk].
  apply andb_prop in Hk as [H1%Z.leb_le H2%Z.ltb_lt]. lia.
Qed.


Lemma increasing_sorted l : increasing l -> sorted l.
Proof. intros H. rewrite <- (unique_increasing l H). apply unique_sorted. Qed.
Lemma part_sorted o n l : sorted l -> sorted (part o n l).
Proof.
  unfold part. induction 1 as [|x l Hx Hl IH]; [constructor|]. cbn [filter].
  destruct ((o <=? x) && (x <? o + n)); [|exact IH]. cbn [map]. constructor; [|exact IH].
  intros y Hy. apply in_map_iff in Hy as (z & <- & Hz). apply filter_In in Hz as [Hz _]. specialize (Hx z Hz). lia.
Qed.
Lemma part_increasing o n l : increasing l -> increasing (part o n l).
Proof. intros H. apply sorted_increasing, part_sorted, increasing_sorted, H. Qed.

(** the elements from [e] on *)
Definition from (e : Z) (l : list Z) : list Z := filter (fun k => e <=? k) l.
Lemma split_at o n l : sorted l -> (forall k, In k l -> o <= k) -> l = map (fun k => k + o) (part o n l) ++ from (o + n) l.
Proof.
  unfold part, from. rewrite map_map. induction 1 as [|x l Hx Hl IH]; intros Ho; [reflexivity|]. cbn [filter].
  assert (o <= x) by (apply Ho; now left). destruct (Z.leb_spec o x); [|lia]. cbn [andb].
  destruct (Z.ltb_spec x (o + n)) as [L|L]; destruct (Z.leb_spec (o + n) x); try lia.
  - cbn [map app]. f_equal; [lia|]. apply IH. intros k Hk. apply Ho. now right.
  - assert (filter (fun k => (o <=? k) && (k <? o + n)) l = []) as ->.
    { assert (forall k, In k l -> x < k) as Hk by exact Hx. clear -Hk L. induction l as [|y l IH]; [reflexivity|]. cbn [filter].
      assert (x < y) by (apply Hk; now left). destruct (Z.ltb_spec y (o + n)); [lia|]. rewrite andb_false_r. apply IH. intros k H1. apply Hk. now right. }
    cbn [map app]. f_equal. assert (forall k, In k l -> x < k) as Hk by exact Hx. clear -Hk L. induction l as [|y l IH]; [reflexivity|]. cbn [filter].
    assert (x < y) by (apply Hk; now left). destruct (Z.leb_spec (o + n) y); [|lia]. f_equal. apply IH. intros k H1. apply Hk. now right.
Qed.
Lemma from_sorted e l : sorted l -> sorted (from e l).
Proof.
  unfold from. induction 1 as [|x l Hx Hl IH]; [constructor|]. cbn [filter]. destruct (e <=? x); [|exact IH]. constructor; [|exact IH].
  intros y Hy. apply filter_In in Hy as [Hy _]. now apply Hx.
Qed.
Lemma from_In e l k : In k (from e l) <-> In k l /\ e <= k.
Proof. unfold from. rewrite filter_In, Z.leb_le. reflexivity. Qed.
Lemma part_from e o n l : e <= o -> part o n (from e l) = part o n l.
Proof.
  intros He. unfold part, from. f_equal. induction l as [|x l IH]; [reflexivity|]. cbn [filter]. destruct (Z.leb_spec e x) as [L|L]; cbn [filter].
  - rewrite IH. reflexivity.
  - rewrite IH. destruct (Z.leb_spec o x); [lia|reflexivity].
Qed.

(** *** joining data *)
Section Join.
Context {V : Type} (dflt : V) (d : nat).
Notation data := (list Z -> V).
Fixpoint joined (o : Z) (parts : list (Z * data)) (q : list Z) : V :=
  match parts with
  | [] => dflt
  | (n, E) :: t => if nth d q 0 <? o + n then E (set_at q d (nth d q 0 - o)) else joined (o + n) t q
  end.
Lemma joined_joins o parts : Forall (fun nE => 0 <= fst nE) parts -> forall before n E after, parts = before ++ (n, E) :: after ->
  forall q k, (d < length q)%nat -> 0 <= k < n -> joined o parts (set_at q d (o + fold_right Z.add 0 (map fst before) + k)) = E (set_at q d k).
Proof.
  intros Hn before. revert o parts Hn. induction before as [|[m F] before IH]; intros o parts Hn n E after -> q k Hd Hk.
  - cbn [app joined map fold_right]. rewrite nth_set_same by exact Hd. destruct (Z.ltb_spec (o + 0 + k) (o + n)); [|lia].
    rewrite set_at_set. do 2 f_equal. lia.
  - cbn [app joined map fold_right fst]. rewrite nth_set_same by exact Hd. inversion Hn as [|? ? Hm Hn']; subst. cbn [fst] in Hm.
    assert (0 <= fold_right Z.add 0 (map fst before)) as H0.
    { clear -Hn'. induction before as [|[m F] b IH]; [cbn; lia|]. inversion Hn' as [|? ? H1 H2]; subst. specialize (IH H2). cbn in *. lia. }
    destruct (Z.ltb_spec (o + (m + fold_right Z.add 0 (map fst before)) + k) (o + m)); [lia|].
    rewrite <- (IH (o + m) _ Hn' n E after eq_refl q k Hd Hk). do 2 f_equal. lia.
Qed.

Fixpoint with_offsets (o : Z) (parts : list (Z * data)) : list (Z * Z * data) :=
  match parts with [] => [] | (n, E) :: t => (o, n, E) :: with_offsets (o + n) t end.

Context (L : list (list Z)) (Hd : (d < length L)%nat).
Let s := map zlen L.
Lemma Hds : (d < length s)%nat. Proof. unfold s. now rewrite map_length. Qed.
Definition chunk_data (E : data) (l : list Z) (p : list Z) (k : Z) : V := E (set_at (gather L p) d (znth l k)).
Lemma chunk_steady E l : steady_in d (chunk_data E l).
Proof. intros p i j. unfold chunk_data. now rewrite gather_set_p, set_at_set. Qed.

Lemma length_gather p : length p = length L -> length (gather L p) = length L.
Proof. intros H. rewrite gather_length; congruence. Qed.

Lemma has_ext' (r : arr V) m F G : has s d r m F -> (forall p k, position (set_at s d m) p -> 0 <= k < m -> F p k = G p k) -> has s d r m G.
Proof.
  intros [H1 H2] He. split; [exact H1|]. intros p Hp. rewrite (H2 p Hp). apply He; [exact Hp|]. apply (inside s d Hds m p Hp).
Qed.
Lemma pos_gather m p : position (set_at s d m) p -> (d < length (gather L p))%nat.
Proof.
  intros Hp. rewrite length_gather; [exact Hd|]. apply Forall2_len in Hp. rewrite length_set_at in Hp. unfold s in Hp. now rewrite map_length in Hp.
Qed.

Lemma chunks_join : forall parts o l chunks, Forall (fun nE => 0 <= fst nE) parts -> sorted l -> l <> [] ->
  (forall k, In k l -> o <= k < o + fold_right Z.add 0 (map fst parts)) ->
  Forall2 (fun x r => let '(o, n, E) := x in has s d r (zlen (part o n l)) (chunk_data E (part o n l)))
    (filter (fun '(o, n, _) => 0 <? zlen (part o n l)) (with_offsets o parts)) chunks ->
  exists c, concat_all chunks d = Some c /\ has s d c (zlen l) (chunk_data (joined o parts) l).
Proof.
  induction parts as [|[n E] parts IH]; intros o l chunks Hn Hs Hne Hr Hc.
  { exfalso. destruct l as [|k l]; [congruence|]. specialize (Hr k (or_introl eq_refl)). cbn in Hr. lia. }
  inversion Hn as [|? ? Hn0 Hn']; subst. cbn [fst] in Hn0. cbn [with_offsets] in Hc. cbn [map fst fold_right] in Hr.
  pose proof (split_at o n l Hs (fun k Hk => proj1 (Hr k Hk))) as Hsplit.
  set (l2 := from (o + n) l) in *. set (l1 := part o n l) in *.
  assert (Forall (fun y => o + n <= fst (fst y)) (with_offsets (o + n) parts)) as Hoff.
  { clear -Hn'. assert (forall e, e <= o + n -> Forall (fun y : Z * Z * data => e <= fst (fst y)) (with_offsets (o + n) parts)) as K; [|apply K; lia].
    revert Hn'. generalize (o + n). clear. induction parts as [|[m F] parts IH]; intros z Hn e He; [constructor|]. inversion Hn; subst. cbn [fst] in *.
    constructor; [exact He|]. apply IH; [assumption|lia]. }
  assert (forall chunks', Forall2 (fun x r => let '(o, n, E) := x in has s d r (zlen (part o n l)) (chunk_data E (part o n l)))
            (filter (fun '(o, n, _) => 0 <? zlen (part o n l)) (with_offsets (o + n) parts)) chunks' ->
          Forall2 (fun x r => let '(o, n, E) := x in has s d r (zlen (part o n l2)) (chunk_data E (part o n l2)))
            (filter (fun '(o, n, _) => 0 <? zlen (part o n l2)) (with_offsets (o + n) parts)) chunks') as Htail.
  { intros chunks' H. rewrite (filter_ext_in _ (fun '(o, n, _) => 0 <? zlen (part o n l))).
    - apply Forall2_intro_nth; [apply (Forall2_len _ _ _ H)|]. intros i [[o' n'] E'] r Hi Hr'. pose proof (Forall2_nth_error _ _ _ _ _ _ H Hi Hr') as K. cbv beta iota in K |- *.
      apply nth_error_In in Hi. apply filter_In in Hi as [Hi _]. rewrite Forall_forall in Hoff. specialize (Hoff _ Hi). cbn [fst] in Hoff.
      unfold l2. rewrite part_from by exact Hoff. exact K.
    - intros [[o' n'] E'] Hi. rewrite Forall_forall in Hoff. specialize (Hoff _ Hi). cbn [fst] in Hoff. unfold l2. now rewrite part_from by exact Hoff. }
  assert (forall k, In k l2 -> (o + n) <= k < (o + n) + fold_right Z.add 0 (map fst parts)) as Hr2.
  { intros k Hk. apply from_In in Hk as [Hk1 Hk2]. specialize (Hr k Hk1). lia. }
  assert (zlen l = zlen l1 + zlen l2) as Hlen.
  { rewrite Hsplit at 1. unfold zlen. rewrite app_length, map_length. lia. }
  assert (forall k, 0 <= k < zlen l1 -> znth l k = znth l1 k + o) as Hk1.
  { intros k Hk. apply znth_elem. rewrite Hsplit. apply elem_app. left. apply elem_map. exists (znth l1 k). split; [now apply elem_znth|reflexivity]. }
  assert (forall k, zlen l1 <= k < zlen l -> znth l k = znth l2 (k - zlen l1)) as Hk2.
  { intros k Hk. apply znth_elem. rewrite Hsplit. apply elem_app. right. rewrite zlen_map. split; [lia|]. apply elem_znth. lia. }
  assert (forall p k, position (set_at s d (zlen l)) p \/ position (set_at s d (zlen l1)) p -> 0 <= k < zlen l1 -> chunk_data E l1 p k = chunk_data (joined o ((n, E) :: parts)) l p k) as Hfirst.
  { intros p k Hp Hk. unfold chunk_data. cbn [joined]. assert (d < length (gather L p))%nat as Hdp by (destruct Hp as [Hp|Hp]; eapply pos_gather; exact Hp).
    rewrite nth_set_same by exact Hdp. rewrite Hk1 by exact Hk. pose proof (part_range o n l) as Hpr. fold l1 in Hpr.
    assert (0 <= znth l1 k < n) as B. { unfold in_range in Hpr. rewrite Forall_forall in Hpr. apply Hpr. eapply elem_In, elem_znth, Hk. }
    destruct (Z.ltb_spec (znth l1 k + o) (o + n)); [|lia]. rewrite set_at_set. do 2 f_equal. lia. }
  assert (forall p k, position (set_at s d (zlen l)) p \/ position (set_at s d (zlen l2)) p -> zlen l1 <= k < zlen l -> chunk_data (joined (o + n) parts) l2 p (k - zlen l1) = chunk_data (joined o ((n, E) :: parts)) l p k) as Hsecond.
  { intros p k Hp Hk. unfold chunk_data. cbn [joined]. assert (d < length (gather L p))%nat as Hdp by (destruct Hp as [Hp|Hp]; eapply pos_gather; exact Hp).
    rewrite nth_set_same by exact Hdp. rewrite Hk2 by exact Hk.
    assert (o + n <= znth l2 (k - zlen l1)) as B. { apply (Hr2 (znth l2 (k - zlen l1))). eapply elem_In, elem_znth. lia. }
    destruct (Z.ltb_spec (znth l2 (k - zlen l1)) (o + n)); [lia|]. reflexivity. }
  cbn [filter] in Hc. fold l1 in Hc. pose proof (zlen_nonneg l1) as P1. pose proof (zlen_nonneg l2) as P2.
  destruct (Z.ltb_spec 0 (zlen l1)) as [Lp|Lp].
  - destruct chunks as [|c1 chunks']; [inversion Hc|]. apply Forall2_cons_iff in Hc as [Hc1 Hc']. cbv beta iota in Hc1. fold l1 in Hc1. specialize (Htail _ Hc').
    destruct (Z.eq_dec (zlen l2) 0) as [Z2|Z2].
    + assert (l2 = []) as E2 by (apply zlen_nil; lia).
      assert (chunks' = []) as ->.
      { clear -Htail E2. rewrite E2 in Htail. assert (forall ps : list (Z * Z * data), filter (fun '(o, n, _) => 0 <? zlen (part o n [])) ps = []) as K
          by (induction ps as [|[[? ?] ?] ps IH]; [reflexivity|exact IH]). rewrite K in Htail. now inversion Htail. }
      exists c1. split; [reflexivity|]. replace (zlen l) with (zlen l1) in * by lia. apply (has_ext' _ _ _ _ Hc1). intros p k Hp Hk. apply Hfirst; auto.
    + destruct (IH (o + n) l2 chunks' Hn') as (c2 & E2 & H2); [now apply from_sorted|intros ->; cbn in Z2; lia|exact Hr2|exact Htail|].
      destruct (concatenate_has s d Hds c1 c2 (zlen l1) (zlen l2) _ _ P1 (chunk_steady _ _) Hc1 H2) as (c & Ec & Hcc).
      exists c. split.
      * cbn [concat_all]. destruct chunks' as [|c' t]; [discriminate|]. rewrite E2. exact Ec.
      * rewrite Hlen in *. apply (has_ext' _ _ _ _ Hcc). intros p k Hp Hk. destruct (Z.ltb_spec k (zlen l1)); [apply Hfirst; auto; lia|apply Hsecond; auto; lia].
  - assert (l1 = []) as E1 by (apply zlen_nil; lia).
    assert (zlen l1 = 0) as Z1 by lia.
    destruct (IH (o + n) l2 chunks Hn') as (c2 & E2 & H2); [now apply from_sorted| |exact Hr2|now apply Htail|].
    { intros E2. rewrite E1, E2 in Hsplit. cbn in Hsplit. congruence. }
    exists c2. split; [exact E2|]. replace (zlen l) with (zlen l2) in * by lia. apply (has_ext' _ _ _ _ H2). intros p k Hp Hk.
    rewrite <- Hsecond by (auto; lia). f_equal. lia.
Qed.
End Join.
