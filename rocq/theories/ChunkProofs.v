(** Proofs about contiguous pieces and memory chunks (IndexModel.v) *)
From Coq Require Import ZArith List Bool Lia Permutation.
From Verif Require Import SortSpec IndexModel IndexSpec IndexProofs.
Import ListNotations.
Open Scope Z_scope.
Ltac Zify.zify_post_hook ::= Z.to_euclidean_division_equations.

Ltac sp := repeat match goal with |- _ /\ _ => split end.

(** ** contiguate *)
Definition run (ind : list Z) (i j : Z) : Prop := exists v, forall x, i <= x < j -> elem ind x (v + (x - i)).

Inductive chain (ind : list Z) : Z -> list (Z * Z) -> Z -> Prop :=
| ch_nil n : chain ind n [] n
| ch_cons i j l n : 0 <= i < j -> run ind i j -> chain ind j l n -> chain ind i ((i, j) :: l) n.

Lemma run_snoc ind i j : run ind i j -> i < j -> forall b a, elem ind (j - 1) a -> elem ind j b -> b - a = 1 -> run ind i (j + 1).
Proof.
  intros [v H] Hij b a Ha Hb E. exists v. intros x Hx. destruct (Z.eq_dec x j) as [->|]; [|apply H; lia].
  pose proof (elem_fun _ _ _ _ Ha (H (j - 1) ltac:(lia))). replace (v + (j - i)) with b by lia. exact Hb.
Qed.

Lemma contiguate_chain_gen : forall l pre a s k, k = zlen pre -> 0 <= s <= k ->
  run (pre ++ a :: l) s (k + 1) ->
  chain (pre ++ a :: l) s (combine (s :: jumps k (diff (a :: l))) (jumps k (diff (a :: l)) ++ [k + zlen (a :: l)])) (k + zlen (a :: l)).
Proof.
  induction l as [|b l IH]; intros pre a s k Hk Hs Hr.
  - cbn. unfold zlen; simpl. constructor; [lia|assumption|constructor].
  - rewrite diff_cons2. cbn [jumps].
    assert (pre ++ a :: b :: l = (pre ++ [a]) ++ b :: l) as Eq by (now rewrite <- app_assoc).
    assert (zlen (pre ++ [a]) = k + 1) as Hk1 by (rewrite zlen_app; unfold zlen at 2; simpl; lia).
    replace (k + zlen (a :: b :: l)) with ((k + 1) + zlen (b :: l)) by (rewrite (zlen_cons a); lia).
    assert (elem (pre ++ a :: b :: l) k a) as Ha
      by (apply elem_app; right; split; [lia|]; replace (k - zlen pre) with 0 by lia; now apply elem_0).
    assert (elem (pre ++ a :: b :: l) (k + 1) b) as Hb.
    { rewrite Eq. apply elem_app; right; split; [lia|]. rewrite Hk1. replace (k + 1 - (k + 1)) with 0 by lia. now apply elem_0. }
    destruct (Z.eqb_spec (b - a) 1) as [E|E].
    + assert (run (pre ++ a :: b :: l) s (k + 1 + 1)) as Hr'.
      { apply (run_snoc _ _ _ Hr ltac:(lia) b a); [|exact Hb|exact E].
        replace (k + 1 - 1) with k by lia. exact Ha. }
      rewrite Eq in Hr' |- *. apply (IH (pre ++ [a]) b s (k + 1)); [now symmetry|lia|exact Hr'].
    + cbn [app combine]. constructor; [lia|exact Hr|].
      rewrite Eq. apply (IH (pre ++ [a]) b (k + 1) (k + 1)); [now symmetry|lia|].
      rewrite <- Eq. exists b. intros x Hx. replace x with (k + 1) by lia. replace (b + (k + 1 - (k + 1))) with b by lia. exact Hb.
Qed.

Lemma removelast_snoc {A} (l : list A) x : removelast (l ++ [x]) = l.
Proof. apply removelast_last. Qed.

Lemma contiguate_chain ind : ind <> [] -> chain ind 0 (contiguate ind) (zlen ind).
Proof.
  destruct ind as [|a l]; [congruence|]. intros _. unfold contiguate. rewrite removelast_snoc.
  apply (contiguate_chain_gen l [] a 0 0); [reflexivity|lia|].
  exists a. intros x Hx. replace x with 0 by lia. apply elem_0. lia.
Qed.

Lemma chain_le ind i l n : chain ind i l n -> i <= n.
Proof. induction 1; lia. Qed.

Lemma chain_cover ind i l n : chain ind i l n -> forall x, i <= x < n ->
  exists k ij, elem l k ij /\ fst ij <= x < snd ij.
Proof.
  induction 1 as [|i j l n Hij Hr Hc IH]; intros x Hx; [lia|].
  destruct (Z_lt_le_dec x j).
  - exists 0, (i, j). split; [now apply elem_0|simpl; lia].
  - destruct (IH x ltac:(lia)) as (k & ij & Hk & Hx'). exists (k + 1), ij. split; [|assumption].
    apply elem_S; [|assumption]. destruct Hk; assumption.
Qed.

Lemma chain_bounds ind i l n : chain ind i l n -> forall k a b, elem l k (a, b) -> i <= a /\ a < b <= n /\ run ind a b.
Proof.
  induction 1 as [|i j l n Hij Hr Hc IH]; intros k a b Hk; [now apply elem_nil in Hk|].
  pose proof (chain_le _ _ _ _ Hc). apply elem_cons in Hk as [[-> [= -> ->]]|[_ Hk]]; [repeat split; try lia; assumption|].
  destruct (IH _ _ _ Hk) as (H1 & H2 & H3). repeat split; try lia; assumption.
Qed.

Lemma chain_unique ind i l n : chain ind i l n -> forall x k k' ij ij', elem l k ij -> elem l k' ij' ->
  fst ij <= x < snd ij -> fst ij' <= x < snd ij' -> k = k'.
Proof.
  induction 1 as [|i j l n Hij Hr Hc IH]; intros x k k' ij ij' Hk Hk' Hx Hx'; [now apply elem_nil in Hk|].
  apply elem_cons in Hk as [[-> ->]|[Hk0 Hk]]; apply elem_cons in Hk' as [[-> ->]|[Hk0' Hk']]; try reflexivity.
  - destruct ij' as [a b]. pose proof (chain_bounds _ _ _ _ Hc _ _ _ Hk'). simpl in *. lia.
  - destruct ij as [a b]. pose proof (chain_bounds _ _ _ _ Hc _ _ _ Hk). simpl in *. lia.
  - pose proof (IH x _ _ _ _ Hk Hk' Hx Hx'). lia.
Qed.

Lemma elem_firstn {A} (l : list A) n k x : elem (firstn n l) k x <-> k < Z.of_nat n /\ elem l k x.
Proof.
  revert l k; induction n as [|n IH]; intros l k.
  - simpl. split; [intros H; now apply elem_nil in H|intros [H [? _]]; lia].
  - destruct l as [|a l]; [simpl; split; [intros H; now apply elem_nil in H|intros [_ H]; now apply elem_nil in H]|].
    cbn [firstn]. rewrite !elem_cons, IH. split.
    + intros [[-> ->]|(H & H1 & H2)]; [split; [lia|left; auto]|split; [lia|right; split; [lia|assumption]]].
    + intros [H [[-> ->]|(H1 & H2)]]; [left; auto|right; split; [lia|split; [lia|assumption]]].
Qed.
Lemma elem_skipn {A} (l : list A) n k x : elem (skipn n l) k x <-> 0 <= k /\ elem l (k + Z.of_nat n) x.
Proof.
  unfold elem. rewrite nth_error_skipn || idtac.
  assert (forall n (l : list A) m, nth_error (skipn n l) m = nth_error l (n + m)) as HH.
  { induction n0; intros [|b l0] m; simpl; auto. now destruct m. }
  rewrite HH. split.
  - intros [H0 H]. split; [lia|]. split; [lia|]. replace (Z.to_nat (k + Z.of_nat n)) with (n + Z.to_nat k)%nat by lia. assumption.
  - intros [H0 [_ H]]. split; [lia|]. replace (Z.to_nat (k + Z.of_nat n)) with (n + Z.to_nat k)%nat in H by lia. assumption.
Qed.
Lemma elem_subrange {A} (l : list A) i j k x : 0 <= i <= j ->
  elem (subrange l i j) k x <-> 0 <= k < j - i /\ elem l (i + k) x.
Proof.
  intros H. unfold subrange. rewrite elem_firstn, elem_skipn.
  replace (k + Z.of_nat (Z.to_nat i)) with (i + k) by lia.
  split; [intros (H1 & H2 & H3)|intros (H1 & H2)]; sp; try lia; assumption.
Qed.

Lemma simplify_run : forall l v, l <> [] -> (forall k, 0 <= k < zlen l -> elem l k (v + k)) -> 0 <= v ->
  start_count (simplify l) = Some (v, zlen l).
Proof.
  intros l v Hne H Hv. destruct (simplify_cases l) as [E|(a & d & [(Hd & _ & HE & E)|(i & -> & E)])].
  - (* not simplified: impossible *)
    exfalso. destruct l as [|a [|b l]]; [congruence|discriminate|].
    unfold simplify in E. rewrite diff_cons2 in E.
    assert (forall l a v, (forall k, 0 <= k < zlen (a :: l) -> elem (a :: l) k (v + k)) -> forallb (Z.eqb 1) (diff (a :: l)) = true) as HD.
    { clear. induction l as [|b l IH]; intros a v H; [reflexivity|].
      assert (0 <= zlen l) by apply zlen_nonneg.
      rewrite diff_cons2. cbn [forallb]. rewrite (IH b (v + 1)).
      - pose proof (H 0 ltac:(rewrite !zlen_cons; lia)) as Hz. apply elem_0 in Hz.
        pose proof (H 1 ltac:(rewrite !zlen_cons; lia)) as H1. apply elem_cons in H1 as [[? _]|[_ H1]]; [lia|]. apply elem_0 in H1.
        replace (b - a) with 1 by lia. reflexivity.
      - intros k Hk. assert (0 <= k + 1 < zlen (a :: b :: l)) as Hk1 by (rewrite (zlen_cons a); lia). specialize (H (k + 1) Hk1). rewrite (elem_S a) in H by lia.
        replace (v + 1 + k) with (v + (k + 1)) by lia. exact H. }
    pose proof (HD _ _ _ H) as HD'. rewrite diff_cons2 in HD'. cbn [forallb] in HD'. apply andb_prop in HD' as [H1 H2].
    apply Z.eqb_eq in H1. rewrite <- H1 in E. rewrite H2 in E. discriminate.
  - rewrite E. pose proof (zlen_nonneg l) as Hl. assert (0 < zlen l) by (destruct l; [congruence|rewrite zlen_cons; pose proof (zlen_nonneg l); lia]).
    pose proof (H 0 ltac:(lia)) as Hz. apply HE in Hz as [_ Hz].
    destruct (Z_lt_le_dec 1 (zlen l)).
    + pose proof (H 1 ltac:(lia)) as H1. apply HE in H1 as [_ H1].
      assert (d = 1) by lia. subst d. destruct (Z.ltb_spec (a + zlen l * 1) 0); [lia|]. cbn. do 2 f_equal; lia.
    + assert (zlen l = 1) as Hl1 by lia. destruct l as [|b [|c l]]; [congruence| |rewrite !zlen_cons in Hl1; pose proof (zlen_nonneg l); lia].
      cbn in E. injection E as E1 E2 E3. subst. rewrite Hl1. destruct (Z.ltb_spec (a + 1 * 1) 0); [lia|]. cbn. do 2 f_equal; lia.
  - rewrite E. specialize (H 0 ltac:(unfold zlen; simpl; lia)). apply elem_0 in H. cbn. do 2 f_equal; [lia|unfold zlen; simpl; lia].
Qed.

(** ** product *)
Lemma zlen_flat_map {A B} (f : A -> list B) n l : (forall x, zlen (f x) = n) -> zlen (flat_map f l) = zlen l * n.
Proof. intros H. induction l as [|a l IH]; [reflexivity|]. cbn [flat_map]. rewrite zlen_app, zlen_cons, H, IH. lia. Qed.

Lemma elem_flat_map {A B} (f : A -> list B) n l k y : (forall x, zlen (f x) = n) ->
  elem (flat_map f l) k y <-> exists k1 k2 x, 0 <= k1 /\ 0 <= k2 < n /\ k = k1 * n + k2 /\ elem l k1 x /\ elem (f x) k2 y.
Proof.
  intros Hn. revert k. induction l as [|a l IH]; intros k; cbn [flat_map].
  - split; [intros H; now apply elem_nil in H|intros (? & ? & ? & _ & _ & _ & H & _); now apply elem_nil in H].
  - rewrite elem_app, IH, Hn. split.
    + intros [H|(Hk & k1 & k2 & x & H1 & H2 & H3 & H4 & H5)].
      * exists 0, k, a. pose proof (elem_lt _ _ _ H). rewrite Hn in *. sp; try lia; [now apply elem_0|exact H].
      * exists (k1 + 1), k2, x. sp; try lia; try assumption. now apply elem_S.
    + intros (k1 & k2 & x & H1 & H2 & -> & H4 & H5). apply elem_cons in H4 as [[-> ->]|[H4 H6]].
      * left. exact H5.
      * right. split; [nia|]. exists (k1 - 1), k2, x. sp; try lia; assumption.
Qed.

Lemma elem_product_cons {A} (l : list A) ls k t : elem (product (l :: ls)) k t <->
  exists k1 k2 x t', 0 <= k1 /\ 0 <= k2 < zlen (product ls) /\ k = k1 * zlen (product ls) + k2 /\
    elem l k1 x /\ elem (product ls) k2 t' /\ t = x :: t'.
Proof.
  cbn [product]. rewrite (elem_flat_map _ (zlen (product ls))) by (intros; apply zlen_map).
  split.
  - intros (k1 & k2 & x & H1 & H2 & H3 & H4 & H5). apply elem_map in H5 as (t' & H5 & ->). exists k1, k2, x, t'. auto 10.
  - intros (k1 & k2 & x & t' & H1 & H2 & H3 & H4 & H5 & ->). exists k1, k2, x. sp; try assumption; try lia.
    apply elem_map. exists t'. auto.
Qed.

Lemma product_exists {A B} (R : A -> B -> Prop) ls xs :
  Forall2 (fun l x => exists k a, elem l k a /\ R a x) ls xs -> exists k t, elem (product ls) k t /\ Forall2 R t xs.
Proof.
  induction 1 as [|l x ls xs (k1 & a & Ha & HR) H IH].
  - exists 0, []. split; [now apply elem_0|constructor].
  - destruct IH as (k2 & t & Ht & HRt). exists (k1 * zlen (product ls) + k2), (a :: t). split; [|constructor; assumption].
    apply elem_product_cons. exists k1, k2, a, t. pose proof (elem_lt _ _ _ Ht). pose proof (elem_lt _ _ _ Ha). sp; try lia; assumption || reflexivity.
Qed.

Lemma product_unique {A B} (R : A -> B -> Prop) ls xs :
  Forall2 (fun l x => forall k k' a a', elem l k a -> elem l k' a' -> R a x -> R a' x -> k = k') ls xs ->
  forall k k' t t', elem (product ls) k t -> elem (product ls) k' t' -> Forall2 R t xs -> Forall2 R t' xs -> k = k'.
Proof.
  induction 1 as [|l x ls xs Hl H IH]; intros k k' t t' Ht Ht' HR HR'.
  - cbn in Ht, Ht'. apply elem_cons in Ht as [[-> _]|[_ Ht]]; [|now apply elem_nil in Ht].
    apply elem_cons in Ht' as [[-> _]|[_ Ht']]; [reflexivity|now apply elem_nil in Ht'].
  - apply elem_product_cons in Ht as (k1 & k2 & a & u & H1 & H2 & -> & H4 & H5 & ->).
    apply elem_product_cons in Ht' as (k1' & k2' & a' & u' & H1' & H2' & -> & H4' & H5' & ->).
    inversion HR; subst. inversion HR'; subst.
    rewrite (Hl _ _ _ _ H4 H4') by assumption. rewrite (IH _ _ _ _ H5 H5') by assumption. reflexivity.
Qed.

Lemma product_elem_Forall2 {A} (ls : list (list A)) k t : elem (product ls) k t -> Forall2 (fun l a => In a l) ls t.
Proof.
  revert k t; induction ls as [|l ls IH]; intros k t H.
  - cbn in H. apply elem_cons in H as [[_ ->]|[_ H]]; [constructor|now apply elem_nil in H].
  - apply elem_product_cons in H as (k1 & k2 & x & t' & _ & _ & _ & H1 & H2 & ->). constructor; [eapply elem_In, H1|eapply IH, H2].
Qed.

Lemma product_map {A B} (f : A -> B) ls : product (map (map f) ls) = map (map f) (product ls).
Proof.
  induction ls as [|l ls IH]; [reflexivity|]. cbn [map product]. rewrite IH.
  induction l as [|a l IHl]; [reflexivity|]. cbn [map flat_map]. rewrite IHl, map_app. f_equal. rewrite !map_map. reflexivity.
Qed.

Lemma combine_map {A B C} (f : A -> B) (g : A -> C) l : combine (map f l) (map g l) = map (fun x => (f x, g x)) l.
Proof. induction l; simpl; congruence. Qed.

Lemma sequence_map {A B} (f : A -> option B) (g : A -> B) l : (forall x, In x l -> f x = Some (g x)) -> sequence (map f l) = Some (map g l).
Proof. induction l as [|a l IH]; intros H; [reflexivity|]. cbn. rewrite (H a) by (now left). rewrite IH by (intros; apply H; now right). reflexivity. Qed.

Lemma map_nth_combine {A B} (f : A -> B) l : map (fun a => f a) l = map f l.
Proof. reflexivity. Qed.

(** the pieces of one axis with their start and count *)
Definition pieces1 (ind : list Z) : list ((Z * Z) * sel) :=
  map (fun ij => (ij, simplify (subrange ind (fst ij) (snd ij)))) (contiguate ind).

Definition piece_of (t : list ((Z * Z) * sel)) : list (Z * Z) * list Z * list Z :=
  (map fst t, map (fun p => match start_count (snd p) with Some (a, _) => a | None => 0 end) t,
   map (fun p => match start_count (snd p) with Some (_, b) => b | None => 0 end) t).

Lemma piece_sc ind p : ind <> [] -> Forall (fun i => 0 <= i) ind -> In p (pieces1 ind) ->
  exists i j v, p = ((i, j), simplify (subrange ind i j)) /\ 0 <= i < j /\ j <= zlen ind /\
    start_count (snd p) = Some (v, j - i) /\ (forall x, i <= x < j -> elem ind x (v + (x - i))).
Proof.
  intros Hne Hnn Hin. apply in_map_iff in Hin as ([i j] & <- & Hin). cbn [fst snd].
  apply In_elem in Hin as [k Hk]. pose proof (contiguate_chain ind Hne) as Hc.
  destruct (chain_bounds _ _ _ _ Hc _ _ _ Hk) as (H1 & H2 & v & Hv).
  exists i, j, v. split; [reflexivity|]. split; [lia|]. split; [lia|]. split; [|exact Hv].
  assert (zlen (subrange ind i j) = j - i) as Hlen.
  { unfold subrange, zlen. rewrite firstn_length, skipn_length. unfold zlen in *. lia. }
  rewrite <- Hlen. apply simplify_run.
  - intros E. rewrite E in Hlen. cbn in Hlen. unfold zlen in Hlen. simpl in Hlen. lia.
  - intros q Hq. apply elem_subrange; [lia|]. split; [lia|]. replace (v + q) with (v + (i + q - i)) by lia. apply Hv. lia.
  - pose proof (Hv i ltac:(lia)) as Hi. apply elem_In in Hi. apply (proj1 (Forall_forall _ _) Hnn) in Hi. lia.
Qed.

Lemma loop_contiguous_eq inds : Forall (fun l => l <> []) inds -> Forall (Forall (fun i => 0 <= i)) inds ->
  loop_contiguous inds = Some (map piece_of (product (map pieces1 inds))).
Proof.
  intros Hne Hnn. unfold loop_contiguous.
  replace (map contiguate inds) with (map (map fst) (map pieces1 inds)).
  2:{ rewrite map_map. apply map_ext. intros ind. unfold pieces1. rewrite map_map. cbn. apply map_id. }
  replace (map (fun '(ind, outsl) => map (fun '(i, j) => simplify (subrange ind i j)) outsl) (combine inds (map (map fst) (map pieces1 inds))))
    with (map (map snd) (map pieces1 inds)).
  2:{ clear. induction inds as [|ind inds IH]; [reflexivity|]. cbn [map combine]. rewrite IH. f_equal.
      unfold pieces1. rewrite !map_map. cbn. apply map_ext. intros [i j]. reflexivity. }
  rewrite !product_map, combine_map, map_map.
  apply sequence_map. intros t Ht. apply In_elem in Ht as [k Hk]. apply product_elem_Forall2 in Hk.
  unfold piece_of.
  rewrite (sequence_map start_count (fun s => match start_count s with Some x => x | None => (0, 0) end)).
  - rewrite !map_map. f_equal. f_equal; [f_equal|]; apply map_ext; intros [ij s]; cbn [snd]; destruct (start_count s) as [[? ?]|]; reflexivity.
  - intros s Hs. apply in_map_iff in Hs as (p & <- & Hp).
    assert (exists ind, In ind inds /\ In p (pieces1 ind)) as (ind & Hi & Hpi).
    { clear -Hk Hp. remember (map pieces1 inds) as L eqn:HL. revert inds HL. induction Hk as [|l a L t Ha Hk IH]; intros inds HL; [contradiction|].
      destruct inds as [|ind inds]; [discriminate|]. injection HL as -> ->.
      destruct Hp as [->|Hp]; [exists ind; split; [now left|assumption]|].
      destruct (IH Hp inds eq_refl) as (ind' & H1 & H2). exists ind'. split; [now right|assumption]. }
    destruct (piece_sc ind p) as (i & j & v & _ & _ & _ & -> & _); [now apply (proj1 (Forall_forall _ _) Hne)|now apply (proj1 (Forall_forall _ _) Hnn)|assumption|reflexivity].
Qed.

Theorem loop_contiguous_spec inds : Forall (fun l => l <> []) inds -> Forall (Forall (fun i => 0 <= i)) inds ->
  exists pieces, loop_contiguous inds = Some pieces /\
    (forall p, position (map zlen inds) p ->
       exists! k, exists outsl start count, elem pieces k (outsl, start, count) /\ covers outsl p) /\
    (forall outsl start count, In (outsl, start, count) pieces ->
       Forall2 (fun ij c => 0 <= fst ij /\ 0 < c /\ snd ij = fst ij + c) outsl count /\
       forall p, covers outsl p -> exists q, picks inds p q /\ copied start outsl p q).
Proof.
  intros Hne Hnn. eexists. split; [apply loop_contiguous_eq; assumption|]. split.
  - intros p Hp.
    set (R := fun (a : (Z * Z) * sel) x => fst (fst a) <= x < snd (fst a)).
    assert (forall t, Forall2 R t p <-> covers (map fst t) p) as HR.
    { unfold covers. intros t. revert p Hp. clear. intros p _. revert p. induction t as [|a t IH]; intros p; cbn [map].
      - split; inversion 1; constructor.
      - split; inversion 1; subst; constructor; try assumption; now apply IH. }
    assert (Forall2 (fun l x => exists k a, elem l k a /\ R a x) (map pieces1 inds) p) as Hex.
    { clear HR. remember (map zlen inds) as ns eqn:Hns. revert inds Hne Hnn Hns. induction Hp as [|n x ns p Hx Hp IH]; intros inds Hne Hnn Hns.
      - destruct inds; [constructor|discriminate].
      - destruct inds as [|ind inds]; [discriminate|]. injection Hns as -> ->. inversion Hne; subst. inversion Hnn; subst. cbn [map]. constructor; [|now apply IH].
        destruct (chain_cover _ _ _ _ (contiguate_chain ind H1) x Hx) as (k & ij & Hk & Hc).
        exists k, (ij, simplify (subrange ind (fst ij) (snd ij))). split; [|exact Hc]. unfold pieces1. apply elem_map. exists ij. auto. }
    assert (Forall2 (fun l x => forall k k' a a', elem l k a -> elem l k' a' -> R a x -> R a' x -> k = k') (map pieces1 inds) p) as Hun.
    { clear HR Hex. remember (map zlen inds) as ns eqn:Hns. revert inds Hne Hnn Hns. induction Hp as [|n x ns p Hx Hp IH]; intros inds Hne Hnn Hns.
      - destruct inds; [constructor|discriminate].
      - destruct inds as [|ind inds]; [discriminate|]. injection Hns as -> ->. inversion Hne; subst. inversion Hnn; subst. cbn [map]. constructor; [|now apply IH].
        intros k k' a a' Ha Ha' Hc Hc'. unfold pieces1 in Ha, Ha'. apply elem_map in Ha as (ij & Ha & ->). apply elem_map in Ha' as (ij' & Ha' & ->).
        exact (chain_unique _ _ _ _ (contiguate_chain ind H1) x _ _ _ _ Ha Ha' Hc Hc'). }
    destruct (product_exists R _ _ Hex) as (k & t & Ht & HRt). exists k. split.
    + do 3 eexists. split; [apply elem_map; exists t; split; [exact Ht|reflexivity]|]. apply HR, HRt.
    + intros k' (outsl & start & count & Hk' & Hc). apply elem_map in Hk' as (t' & Ht' & Eq). unfold piece_of in Eq. injection Eq as -> -> ->.
      apply HR in Hc. exact (product_unique R _ _ Hun _ _ _ _ Ht Ht' HRt Hc).
  - intros outsl start count Hin. apply in_map_iff in Hin as (t & Eq & Hin). unfold piece_of in Eq. injection Eq as <- <- <-.
    apply In_elem in Hin as [k Hk]. apply product_elem_Forall2 in Hk.
    remember (map pieces1 inds) as L eqn:HL. revert inds Hne Hnn HL. induction Hk as [|l a L t Ha Hk IH]; intros inds Hne Hnn HL.
    + destruct inds; [|discriminate]. split; [constructor|]. intros p Hp. inversion Hp; subst. exists []. split; constructor.
    + destruct inds as [|ind inds]; [discriminate|]. injection HL as -> ->. inversion Hne; subst. inversion Hnn; subst.
      destruct (IH inds H2 H4 eq_refl) as [IH1 IH2].
      destruct (piece_sc ind a H1 H3 Ha) as (i & j & v & -> & Hij & Hj & Hsc & Hv). cbn [map fst snd] in *. rewrite Hsc. split.
      * constructor; [cbn; lia|assumption].
      * intros p Hp. inversion Hp as [|? x ? p' Hx Hp' E1 E2]; subst. destruct (IH2 p' Hp') as (q & Hq1 & Hq2). cbn [fst snd] in Hx.
        exists (v + (x - i) :: q). split; constructor; try assumption. now apply Hv.
Qed.

(** ** loop_mem *)
Lemma flat_map_app2 {A B} (f g : A -> list B) l : Permutation (flat_map (fun x => f x ++ g x) l) (flat_map f l ++ flat_map g l).
Proof.
  induction l as [|a l IH]; [reflexivity|]. cbn [flat_map]. rewrite IH, <- !app_assoc. apply Permutation_app_head.
  rewrite !app_assoc. apply Permutation_app_tail, Permutation_app_comm.
Qed.

Lemma flat_map_swap {A B C} (f : A -> B -> list C) la lb :
  Permutation (flat_map (fun a => flat_map (f a) lb) la) (flat_map (fun b => flat_map (fun a => f a b) la) lb).
Proof.
  induction la as [|a la IH]; cbn [flat_map].
  - induction lb; [reflexivity|]. cbn. assumption.
  - rewrite IH. symmetry. apply flat_map_app2.
Qed.

Lemma flat_map_flat_map {A B C} (f : A -> list B) (g : B -> list C) l : flat_map g (flat_map f l) = flat_map (fun x => flat_map g (f x)) l.
Proof. induction l as [|a l IH]; [reflexivity|]. cbn. rewrite flat_map_app, IH. reflexivity. Qed.
Lemma flat_map_map {A B C} (f : A -> B) (g : B -> list C) l : flat_map g (map f l) = flat_map (fun x => g (f x)) l.
Proof. induction l as [|a l IH]; [reflexivity|]. cbn. now rewrite IH. Qed.
Lemma map_flat_map {A B C} (f : A -> list B) (g : B -> C) l : map g (flat_map f l) = flat_map (fun x => map g (f x)) l.
Proof. induction l as [|a l IH]; [reflexivity|]. cbn. now rewrite map_app, IH. Qed.
Lemma flat_map_perm {A B} (f g : A -> list B) l : (forall x, Permutation (f x) (g x)) -> Permutation (flat_map f l) (flat_map g l).
Proof. intros H. induction l as [|a l IH]; [constructor|]. cbn. now apply Permutation_app. Qed.

Lemma product_concat {A} (L : list (list (list A))) :
  Permutation (flat_map product (product L)) (product (map (@concat A) L)).
Proof.
  induction L as [|l L IH]; [reflexivity|]. cbn [map product]. rewrite flat_map_flat_map.
  induction l as [|x l IHl]; [reflexivity|]. cbn [flat_map concat]. rewrite flat_map_app. apply Permutation_app; [|exact IHl].
  rewrite flat_map_map. cbn [product]. rewrite flat_map_swap. apply flat_map_perm. intros y.
  rewrite <- map_flat_map. apply Permutation_map, IH.
Qed.

Lemma concat_split_axis ind n : 1 <= n -> concat (split_axis ind n) = ind.
Proof.
  intros Hn. unfold split_axis. fold (zlen ind).
  assert (forall m k, 0 <= k -> concat (map (fun j => subrange ind j (Z.min (j + n) (zlen ind))) (map (fun i => k * n + Z.of_nat i * n) (seq 0 m)))
            = subrange ind (k * n) (Z.min ((k + Z.of_nat m) * n) (zlen ind)) \/ zlen ind <= k * n) as HH.
  { induction m as [|m IH]; intros k Hk.
    - destruct (Z_lt_le_dec (k * n) (zlen ind)); [|auto]. left. cbn. unfold subrange. replace (Z.to_nat (Z.min ((k + 0) * n) (zlen ind)) - Z.to_nat (k * n))%nat with 0%nat by nia. reflexivity.
    - destruct (Z_lt_le_dec (k * n) (zlen ind)) as [Hlt|]; [|auto]. left. cbn [seq map concat].
      replace (k * n + Z.of_nat 0 * n) with (k * n) by lia.
      replace (map (fun i => k * n + Z.of_nat i * n) (seq 1 m)) with (map (fun i => (k + 1) * n + Z.of_nat i * n) (seq 0 m))
        by (rewrite <- seq_shift, map_map; apply map_ext; intros; nia).
      assert (forall i j l, 0 <= i <= j -> j <= l -> subrange ind i j ++ subrange ind j l = subrange ind i l) as Happ.
      { intros i j l H1 H2. apply list_ext. intros q x. rewrite elem_app, !elem_subrange by lia.
        assert (zlen (subrange ind i j) = Z.min (j - i) (zlen ind - i) \/ zlen ind <= i) as HL.
        { unfold subrange, zlen. rewrite firstn_length, skipn_length. lia. }
        split.
        - intros [[H3 H4]|[H3 H4]]; [split; [lia|assumption]|].
          destruct HL as [HL|HL].
          + destruct H4 as [H4 H5]. destruct (Z_le_gt_dec (j - i) (zlen ind - i)).
            * replace (i + q) with (j + (q - zlen (subrange ind i j))) by lia. split; [lia|assumption].
            * apply elem_lt in H5. lia.
          + destruct H4 as [H4 H5]. apply elem_lt in H5. lia.
        - intros [H3 H4]. pose proof (elem_lt _ _ _ H4). destruct (Z_lt_le_dec q (j - i)); [left; split; [lia|assumption]|].
          right. destruct HL as [HL|HL]; [|lia]. rewrite HL. replace (Z.min (j - i) (zlen ind - i)) with (j - i) by lia. split; [lia|]. split; [lia|].
          replace (j + (q - (j - i))) with (i + q) by lia. assumption. }
      destruct (IH (k + 1) ltac:(lia)) as [E|E].
      + rewrite E. destruct (Z_lt_le_dec ((k + 1) * n) (zlen ind)).
        * replace (Z.min (k * n + n) (zlen ind)) with ((k + 1) * n) by lia. rewrite Happ by nia. f_equal. f_equal. lia.
        * replace (Z.min (k * n + n) (zlen ind)) with (zlen ind) by lia.
          replace (Z.min ((k + 1 + Z.of_nat m) * n) (zlen ind)) with (zlen ind) by nia.
          replace (Z.min ((k + Z.of_nat (S m)) * n) (zlen ind)) with (zlen ind) by nia.
          replace (subrange ind ((k + 1) * n) (zlen ind)) with (@nil Z); [apply app_nil_r|].
          symmetry. unfold subrange. replace (Z.to_nat (zlen ind) - Z.to_nat ((k + 1) * n))%nat with 0%nat by lia. reflexivity.
      + replace (Z.min (k * n + n) (zlen ind)) with (zlen ind) by lia.
        replace (Z.min ((k + Z.of_nat (S m)) * n) (zlen ind)) with (zlen ind) by nia.
        replace (concat _) with (@nil Z); [apply app_nil_r|]. symmetry.
        set (f := fun j => subrange ind j (Z.min (j + n) (zlen ind))).
        assert (forall l, Forall (fun j => zlen ind <= j) l -> concat (map f l) = []) as HN.
        { induction 1 as [|j l Hj Hl IHl]; [reflexivity|]. cbn. rewrite IHl, app_nil_r. unfold f, subrange.
          replace (Z.to_nat (Z.min (j + n) (zlen ind)) - Z.to_nat j)%nat with 0%nat by lia. reflexivity. }
        apply HN, Forall_forall. intros j Hj. apply in_map_iff in Hj as (i & <- & _). nia. }
  unfold arange. destruct (Z.ltb_spec 0 n); [|lia].
  destruct (HH (Z.to_nat ((zlen ind - 0 + n - 1) / n)) 0 ltac:(lia)) as [E|E].
  - cbn [Z.mul Z.add] in E |- *. rewrite E. pose proof (zlen_nonneg ind).
    replace (Z.min (Z.of_nat (Z.to_nat ((zlen ind - 0 + n - 1) / n)) * n) (zlen ind)) with (zlen ind) by nia.
    unfold subrange, zlen. replace (Z.to_nat (Z.of_nat (length ind)) - Z.to_nat 0)%nat with (length ind) by lia. apply firstn_all.
  - assert (ind = []) as -> by (destruct ind; [reflexivity|rewrite zlen_cons in E; pose proof (zlen_nonneg ind); lia]).
    replace ((zlen (@nil Z) - 0 + n - 1) / n) with 0 by (unfold zlen; simpl; nia). reflexivity.
Qed.

Lemma split_axis_len ind n c : 1 <= n -> In c (split_axis ind n) -> zlen c <= n.
Proof.
  intros Hn H. unfold split_axis in H. apply in_map_iff in H as (j & <- & Hj).
  unfold subrange, zlen. rewrite firstn_length, skipn_length. apply In_elem in Hj as [k Hj]. apply elem_arange in Hj; lia.
Qed.

Lemma nth_set_at {A} (l : list A) i j v d : (i < length l)%nat -> nth j (set_at l i v) d = if Nat.eqb i j then v else nth j l d.
Proof.
  revert i j; induction l as [|a l IH]; intros [|i] [|j] H; simpl in *; try lia; try reflexivity. apply IH. lia.
Qed.
Lemma length_set_at {A} (l : list A) i v : length (set_at l i v) = length l.
Proof. revert i; induction l as [|a l IH]; intros [|i]; simpl; auto. Qed.

Lemma preserve_loop_len inds pr : forall m L m' L', preserve_loop inds pr m L = (m', L') -> length L' = length L.
Proof.
  induction pr as [|i pr IH]; intros m L m' L' H; cbn [preserve_loop] in H; [congruence|].
  apply IH in H. rewrite length_set_at in H. exact H.
Qed.
Lemma preserve_loop_in inds pr : forall m L m' L', preserve_loop inds pr m L = (m', L') ->
  Forall (fun i => (i < length L)%nat) pr ->
  forall j, (In j pr -> nth j L' [] = [nth j inds []]) /\ (~ In j pr -> nth j L' [] = nth j L []).
Proof.
  induction pr as [|i pr IH]; intros m L m' L' H Hf j; cbn [preserve_loop] in H.
  - injection H as <- <-. split; [intros []|reflexivity].
  - inversion Hf; subst. apply IH with (j := j) in H as [H1' H2']; [|eapply Forall_impl; [|eassumption]; intros; now rewrite length_set_at].
    split.
    + intros Hj. destruct (in_dec Nat.eq_dec j pr) as [Hp|Hp]; [now apply H1'|].
      rewrite (H2' Hp). destruct Hj as [->|Hj]; [|contradiction]. rewrite nth_set_at by assumption. now rewrite Nat.eqb_refl.
    + intros Hj. rewrite H2' by (intros ?; apply Hj; now right). rewrite nth_set_at by assumption.
      destruct (Nat.eqb_spec i j); [subst; exfalso; apply Hj; now left|reflexivity].
Qed.

Definition prodover (f : nat -> Z) (l : list nat) : Z := fold_right (fun i a => f i * a) 1 l.

(* the remaining budget after the preserved axes *)
Lemma preserve_loop_max inds pr : forall m L m' L', preserve_loop inds pr m L = (m', L') -> 1 <= m ->
  (forall i, In i pr -> 1 <= zlen (nth i inds [])) ->
  1 <= m' /\ (prodover (fun i => zlen (nth i inds [])) pr * m' <= m \/
              (m' = 1 /\ m < prodover (fun i => zlen (nth i inds [])) pr)).
Proof.
  induction pr as [|i pr IH]; intros m L m' L' H Hm HN; cbn [preserve_loop] in H.
  - injection H as <- <-. cbn [prodover fold_right]. split; [lia|left; lia].
  - fold (zlen (nth i inds [])) in H. set (N := zlen (nth i inds [])) in *. pose proof (HN i (or_introl eq_refl)) as HNi. fold N in HNi.
    unfold prodover. cbn [fold_right]. fold N. fold (prodover (fun i => zlen (nth i inds [])) pr).
    set (P := prodover (fun i => zlen (nth i inds [])) pr) in *.
    assert (1 <= P) as HP.
    { unfold P. clear -HN. induction pr as [|j pr IH]; [cbn; lia|]. cbn. pose proof (HN j ltac:(right; now left)).
      assert (1 <= prodover (fun i => zlen (nth i inds [])) pr) by (apply IH; intros k [->|Hk]; apply HN; [now left|right; now right]).
      unfold prodover in *. nia. }
    destruct (Z.ltb_spec m N).
    + apply IH in H; [|lia|intros; apply HN; now right]. fold P in H. split; [lia|]. right. destruct H as [Hq0 [Hq1|[-> Hq1]]]; split; nia.
    + apply IH in H; [|nia|intros; apply HN; now right]. fold P in H. split; [lia|].
      destruct H as [Hq0 [Hq1|[-> Hq1]]]; [left|right]; [|split; [reflexivity|]]; nia.
Qed.

Lemma others_loop_spec inds ot : forall m L, 1 <= m -> NoDup ot ->
  (forall i, In i ot -> (i < length L)%nat /\ 1 <= zlen (nth i inds [])) ->
  let R := others_loop inds ot m L in
  length R = length L /\
  exists ns : nat -> Z, (forall i, In i ot -> 1 <= ns i /\ nth i R [] = split_axis (nth i inds []) (ns i)) /\
    (forall i, ~ In i ot -> nth i R [] = nth i L []) /\ prodover ns ot <= m.
Proof.
  induction ot as [|i ot IH]; intros m L Hm Hnd H; cbn [others_loop].
  - split; [reflexivity|]. exists (fun _ => 1). split; [intros ? []|]. split; [reflexivity|]. cbn. lia.
  - inversion Hnd; subst. destruct (H i (or_introl eq_refl)) as [Hi HN]. fold (zlen (nth i inds [])).
    set (N := zlen (nth i inds [])) in *. set (n := Z.min m N) in *.
    assert (1 <= n) as Hn by lia.
    destruct (IH (m / n) (set_at L i (split_axis (nth i inds []) n))) as (Hl & ns & H4 & H5 & H6).
    + nia.
    + assumption.
    + intros j Hj. rewrite length_set_at. apply H. now right.
    + rewrite length_set_at in Hl. split; [exact Hl|].
      exists (fun j => if Nat.eqb j i then n else ns j). split; [|split].
      * intros j [<-|Hj].
        -- rewrite Nat.eqb_refl. split; [assumption|]. rewrite (H5 i) by assumption. rewrite nth_set_at by assumption. now rewrite Nat.eqb_refl.
        -- destruct (Nat.eqb_spec j i); [subst; contradiction|]. now apply H4.
      * intros j Hj. rewrite H5 by (intros ?; apply Hj; now right). rewrite nth_set_at by assumption.
        destruct (Nat.eqb_spec i j); [subst; exfalso; apply Hj; now left|reflexivity].
      * unfold prodover. cbn [fold_right]. rewrite Nat.eqb_refl.
        assert (fold_right (fun j a => (if Nat.eqb j i then n else ns j) * a) 1 ot = prodover ns ot) as ->.
        { clear -H2. unfold prodover. induction ot as [|j ot IH]; [reflexivity|]. cbn. rewrite IH by (intros ?; apply H2; now right).
          destruct (Nat.eqb_spec j i); [subst; exfalso; apply H2; now left|reflexivity]. }
        nia.
Qed.

Lemma prodover_perm f l l' : Permutation l l' -> prodover f l = prodover f l'.
Proof. induction 1; unfold prodover in *; cbn [fold_right]; lia. Qed.
Lemma prodover_app f l l' : prodover f (l ++ l') = prodover f l * prodover f l'.
Proof. induction l as [|a l IH]; unfold prodover in *; cbn [app fold_right]; [lia|rewrite IH; lia]. Qed.
Lemma prodover_le f g l : (forall i, In i l -> 0 <= f i <= g i) -> 0 <= prodover f l <= prodover g l.
Proof.
  induction l as [|a l IH]; intros H; unfold prodover in *; cbn [fold_right]; [lia|].
  assert (0 <= fold_right (fun i a0 => f i * a0) 1 l <= fold_right (fun i a0 => g i * a0) 1 l) by (apply IH; intros; apply H; now right).
  pose proof (H a (or_introl eq_refl)). nia.
Qed.
Lemma prodover_ext f g l : (forall i, In i l -> f i = g i) -> prodover f l = prodover g l.
Proof. intros H. induction l as [|a l IH]; [reflexivity|]. unfold prodover in *. cbn. rewrite (H a) by (now left). rewrite IH; [reflexivity|]. intros; apply H; now right. Qed.

Lemma size_prodover c : size c = prodover (fun i => zlen (nth i c [])) (seq 0 (length c)).
Proof.
  unfold size, prodover. induction c as [|l c IH]; [reflexivity|]. cbn [fold_right length seq nth]. rewrite IH, <- seq_shift. f_equal.
  clear. generalize (seq 0 (length c)) as s. induction s as [|i s IH]; [reflexivity|]. cbn. now rewrite IH.
Qed.

Lemma split_perm (p : nat -> bool) (l : list nat) : Permutation l (filter p l ++ filter (fun i => negb (p i)) l).
Proof.
  induction l as [|a l IH]; [constructor|]. cbn. destruct (p a); cbn; [now constructor|].
  etransitivity; [apply perm_skip, IH|]. apply Permutation_middle.
Qed.

Lemma Forall2_nth_in {A} (L : list (list A)) c d i : Forall2 (fun l a => In a l) L c -> (i < length L)%nat -> In (nth i c d) (nth i L []).
Proof. intros H. revert i. induction H; intros [|i] Hi; simpl in *; try lia; auto. apply IHForall2. lia. Qed.

Lemma Forall2_len {A B} (R : A -> B -> Prop) l l' : Forall2 R l l' -> length l = length l'.
Proof. induction 1; simpl; congruence. Qed.

Theorem loop_mem_spec MAX inds preserve : 1 <= MAX -> Forall (fun l => l <> []) inds ->
  NoDup preserve -> Forall (fun i => (i < length inds)%nat) preserve ->
  let chunks := loop_mem MAX inds preserve in
  Permutation (flat_map product chunks) (product inds) /\
  (forall c, In c chunks ->
     (forall i, In i preserve -> nth i c [] = nth i inds []) /\
     size c <= Z.max MAX (fold_right (fun i a => zlen (nth i inds []) * a) 1 preserve) /\
     length c = length inds).
Proof.
  intros HM Hne Hnd Hpr chunks.
  assert (forall i, (i < length inds)%nat -> 1 <= zlen (nth i inds [])) as Hlen.
  { intros i Hi. pose proof (proj1 (Forall_forall _ _) Hne _ (nth_In _ [] Hi)). destruct (nth i inds []) as [|z r]; [congruence|].
    rewrite zlen_cons. pose proof (zlen_nonneg r). lia. }
  unfold loop_mem in chunks. destruct (preserve_loop inds preserve MAX (map (fun _ => []) inds)) as [m L] eqn:EP.
  pose proof (preserve_loop_len _ _ _ _ _ _ EP) as HLL. rewrite map_length in HLL.
  pose proof (preserve_loop_in _ _ _ _ _ _ EP ltac:(eapply Forall_impl; [|exact Hpr]; intros; now rewrite map_length)) as HPin.
  pose proof (preserve_loop_max _ _ _ _ _ _ EP HM ltac:(intros i Hi; apply Hlen, (proj1 (Forall_forall _ _) Hpr), Hi)) as [Hm1 Hm2].
  set (isp := fun i => existsb (Nat.eqb i) preserve) in *.
  assert (forall i, isp i = true <-> In i preserve) as Hisp.
  { intros i. unfold isp. rewrite existsb_exists. split; [intros (x & H1 & H2%Nat.eqb_eq); now subst|intros; exists i; split; [assumption|apply Nat.eqb_refl]]. }
  set (others := filter (fun i => negb (isp i)) (seq 0 (length inds))) in *.
  assert (forall i, In i others <-> (i < length inds)%nat /\ ~ In i preserve) as Hoth.
  { intros i. unfold others. rewrite filter_In, in_seq, negb_true_iff, <- not_true_iff_false, Hisp. intuition lia. }
  assert (NoDup (rev others)) as Hndo by (apply NoDup_rev, NoDup_filter, seq_NoDup).
  destruct (others_loop_spec inds (rev others) m L Hm1 Hndo) as (HRl & ns & HR1 & HR2 & HR3).
  { intros i Hi. apply in_rev, Hoth in Hi as [Hi _]. split; [lia|now apply Hlen]. }
  set (R := others_loop inds (rev others) m L) in *.
  assert (map (@concat Z) R = inds) as Hconc.
  { apply nth_ext with (d := concat []) (d' := []); rewrite map_length, HRl, HLL; [reflexivity|]. intros i Hi. rewrite map_nth.
    destruct (in_dec Nat.eq_dec i preserve) as [Hp|Hp].
    - rewrite HR2 by (intros Hx; apply in_rev, Hoth in Hx; tauto). rewrite (proj1 (HPin i) Hp). cbn. apply app_nil_r.
    - destruct (HR1 i) as [Hn ->]; [apply -> in_rev; apply Hoth; auto|]. now apply concat_split_axis. }
  split.
  - change chunks with (product R). rewrite product_concat, Hconc. reflexivity.
  - intros c Hc. change chunks with (product R) in Hc. apply In_elem in Hc as [k Hk]. apply product_elem_Forall2 in Hk.
    assert (length c = length inds) as Hcl by (apply Forall2_len in Hk; lia).
    assert (forall i, In i preserve -> nth i c [] = nth i inds []) as Hcp.
    { intros i Hi. pose proof (proj1 (Forall_forall _ _) Hpr _ Hi) as Hil. cbn in Hil.
      pose proof (Forall2_nth_in _ _ [] i Hk ltac:(lia)) as Hin.
      rewrite HR2 in Hin by (intros Hx; apply in_rev, Hoth in Hx; tauto). rewrite (proj1 (HPin i) Hi) in Hin. destruct Hin as [<-|[]]. reflexivity. }
    split; [exact Hcp|]. split; [|exact Hcl].
    rewrite size_prodover, Hcl.
    rewrite (prodover_perm _ _ _ (split_perm isp (seq 0 (length inds)))), prodover_app. fold others.
    assert (Permutation (filter isp (seq 0 (length inds))) preserve) as Hpp.
    { apply NoDup_Permutation; [apply NoDup_filter, seq_NoDup|assumption|]. intros i. rewrite filter_In, in_seq, Hisp.
      split; [tauto|]. intros Hi. split; [|assumption]. pose proof (proj1 (Forall_forall _ _) Hpr _ Hi). cbn in *. lia. }
    rewrite (prodover_perm _ _ _ Hpp).
    rewrite (prodover_ext _ (fun i => zlen (nth i inds [])) preserve) by (intros i Hi; now rewrite Hcp).
    assert (0 <= prodover (fun i => zlen (nth i c [])) others <= m) as Hom.
    { rewrite (prodover_perm _ _ _ (Permutation_rev others)).
      pose proof (prodover_le (fun i => zlen (nth i c [])) ns (rev others)) as HH.
      assert (0 <= prodover (fun i => zlen (nth i c [])) (rev others) <= prodover ns (rev others)); [|lia].
      apply HH. intros i Hi. split; [apply zlen_nonneg|]. destruct (HR1 i Hi) as [Hn E]. apply (split_axis_len (nth i inds [])); [assumption|].
      rewrite <- E. apply Forall2_nth_in; [assumption|]. apply in_rev, Hoth in Hi. lia. }
    fold (prodover (fun i => zlen (nth i inds [])) preserve) in *.
    set (P := prodover (fun i => zlen (nth i inds [])) preserve) in *.
    assert (0 <= P) as HP0. { unfold P.
      clear. unfold prodover. induction preserve as [|j l IH]; cbn [fold_right]; [lia|]. pose proof (zlen_nonneg (nth j inds [])). nia. }
    change (fold_right (fun i a => zlen (nth i inds []) * a) 1 preserve) with P.
    destruct Hm2 as [H|[-> H]]; nia.
Qed.
