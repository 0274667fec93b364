(** View.get delivers the requested elements (ViewModel.v) *)
From Coq Require Import ZArith List Bool Lia Permutation.
From Verif Require Import SortSpec IndexModel IndexSpec IndexProofs ChunkProofs ArrModel ViewModel ViewSpec ArrProofs.
Import ListNotations.
Open Scope Z_scope.
Ltac Zify.zify_post_hook ::= Z.to_euclidean_division_equations.

Lemma combine_length_eq {A B} (l : list A) (l' : list B) : length l = length l' -> length (combine l l') = length l.
Proof. intros H. rewrite combine_length. lia. Qed.

Lemma Forall2_map_r {A B C} (R : A -> C -> Prop) (f : B -> C) l l' : Forall2 R l (map f l') <-> Forall2 (fun a b => R a (f b)) l l'.
Proof.
  split.
  - revert l. induction l' as [|b l' IH]; intros l H; cbn in H; inversion H; subst; constructor; auto.
  - induction 1; cbn; constructor; auto.
Qed.
Lemma Forall2_map_l {A B C} (R : C -> B -> Prop) (f : A -> C) l l' : Forall2 R (map f l) l' <-> Forall2 (fun a b => R (f a) b) l l'.
Proof.
  split.
  - revert l'. induction l as [|b l IH]; intros l' H; cbn in H; inversion H; subst; constructor; auto.
  - induction 1; cbn; constructor; auto.
Qed.
Lemma Forall2_impl {A B} (R R' : A -> B -> Prop) l l' : (forall a b, R a b -> R' a b) -> Forall2 R l l' -> Forall2 R' l l'.
Proof. intros H. induction 1; constructor; auto. Qed.
Lemma Forall2_and {A B} (R R' : A -> B -> Prop) l l' : Forall2 R l l' -> Forall2 R' l l' -> Forall2 (fun a b => R a b /\ R' a b) l l'.
Proof. induction 1; intros H'; inversion H'; subst; constructor; auto. Qed.
Lemma Forall2_In_r {A B} (R : A -> B -> Prop) l l' b : Forall2 R l l' -> In b l' -> exists a, In a l /\ R a b.
Proof. induction 1 as [|x y l l' Hxy H IH]; intros Hb; [destruct Hb|]. destruct Hb as [->|Hb]; [exists x; simpl; auto|]. destruct (IH Hb) as (a & Ha & HR). exists a. simpl; auto. Qed.
Lemma Forall2_nth_error {A B} (R : A -> B -> Prop) l l' i a b : Forall2 R l l' -> nth_error l i = Some a -> nth_error l' i = Some b -> R a b.
Proof. intros H. revert i. induction H; intros [|i] Ha Hb; simpl in *; try discriminate; [congruence|eauto]. Qed.
Lemma Forall2_intro_nth {A B} (R : A -> B -> Prop) l l' : length l = length l' ->
  (forall i a b, nth_error l i = Some a -> nth_error l' i = Some b -> R a b) -> Forall2 R l l'.
Proof.
  revert l'; induction l as [|a l IH]; intros [|b l'] Hl H; simpl in Hl; try lia; constructor.
  - apply (H 0%nat); reflexivity.
  - apply IH; [lia|]. intros i. apply (H (S i)).
Qed.

(** ** reading a request *)
Lemma piece_in_range : forall outsl count start inds ns,
  Forall2 (fun ij c => 0 <= fst ij /\ 0 < c /\ snd ij = fst ij + c) outsl count ->
  Forall2 (fun n l => in_range n l) ns inds ->
  (exists q, picks inds (map fst outsl) q /\ copied start outsl (map fst outsl) q) ->
  (exists q, picks inds (map (fun ij => snd ij - 1) outsl) q /\ copied start outsl (map (fun ij => snd ij - 1) outsl) q) ->
  Forall2 (fun n sc => 0 <= fst sc /\ 0 < snd sc /\ fst sc + snd sc <= n) ns (combine start count) /\ length start = length count.
Proof.
  induction outsl as [|[i j] os IH]; intros count start inds ns Hoc Hr (q & Hq & Hc) (q' & Hq' & Hc').
  - inversion Hoc; subst. cbn in *. inversion Hc; subst. inversion Hq; subst. inversion Hr; subst. split; [constructor|reflexivity].
  - inversion Hoc as [|? c ? cs Hic Hoc' E1 E2]; subst. cbn [map fst snd] in *.
    inversion Hc as [|s st ? ? ? ? xs ys Hc1]; subst. inversion Hc' as [|? ? ? ? ? ? xs' ys' Hc1']; subst.
    inversion Hq as [|l ls ? ? ? ? He Hq1]; subst. inversion Hq' as [|? ? ? ? ? ? He' Hq1']; subst.
    inversion Hr as [|n ? ns' ? Hn Hr1]; subst.
    destruct (IH cs st ls ns' Hoc' Hr1) as [H1 H2]; [eexists; split; eassumption|eexists; split; eassumption|].
    cbn [combine length]. split; [|lia]. constructor; [|exact H1]. cbn [fst snd].
    pose proof (in_range_elem _ _ _ _ Hn He). pose proof (in_range_elem _ _ _ _ Hn He'). lia.
Qed.

Section View.
Context {A V : Type} (ops : axops A) (junk : list Z -> V).

Notation get := (get ops junk).
Notation fetch := (fetch junk).
Notation read := (read junk).

Lemma read_spec (x : var A V) D inds : represents ops x D ->
  Forall2 (fun a l => request (len ops a) l) (var_axes x) inds ->
  exists r, read x (view_of_inds (var_axes x) inds) = Some r /\ array_is r (map zlen inds) (fun p => D (gather inds p)).
Proof.
  intros Hx Hreq. unfold ViewModel.read, represents in *. cbn [vslices vinds view_of_inds] in *.
  assert (Forall2 (fun n l => in_range n l) (map (len ops) (var_axes x)) inds) as Hrange
    by (apply Forall2_map_l; eapply Forall2_impl; [|exact Hreq]; intros a l H; apply H).
  pose proof (Forall2_len _ _ _ Hreq) as Hlen.
  destruct (var_source x) as [a|f|f].
  - destruct Hx as [Hsh Hv]. destruct (apply_slices_spec inds (map (len ops) (var_axes x)) [] a Hsh Hrange) as (r & Hr & Hs & Hval).
    exists r. split; [exact Hr|]. split; [exact Hs|]. intros p Hp. specialize (Hval [] p eq_refl). cbn [app] in Hval.
    rewrite Hval by (pose proof (Forall2_len _ _ _ Hp); rewrite map_length in *; lia).
    apply Hv. now apply gather_position.
  - exact (Hx inds Hreq).
  - assert (Forall (fun l => l <> []) inds) as Hne.
    { apply Forall_forall. intros l Hl. apply (Forall2_In_r _ _ _ _ Hreq) in Hl as (a & _ & H & _). exact H. }
    assert (Forall (Forall (fun i => 0 <= i)) inds) as Hnn.
    { apply Forall_forall. intros l Hl. apply (Forall2_In_r _ _ _ _ Hreq) in Hl as (a & _ & _ & H & _). eapply Forall_impl; [|exact H]. intros; simpl in *; lia. }
    destruct (loop_contiguous_spec inds Hne Hnn) as (pieces & Hp & Hcov & Hpc). rewrite Hp.
    destruct (read_pieces_spec f D inds pieces (Arr (vshape (view_of_inds (var_axes x) inds)) junk)) as (r & Hr & Hs & Hval).
    { intros outsl start count Hin. destruct (Hpc _ _ _ Hin) as [H1 H2].
      assert (exists q, picks inds (map fst outsl) q /\ copied start outsl (map fst outsl) q) as Hlo.
      { apply H2. clear -H1. induction H1 as [|[i j] c os cs (H1 & H2 & H3) H IH]; cbn; constructor; [cbn in *; lia|assumption]. }
      assert (exists q, picks inds (map (fun ij => snd ij - 1) outsl) q /\ copied start outsl (map (fun ij => snd ij - 1) outsl) q) as Hhi.
      { apply H2. clear -H1. induction H1 as [|[i j] c os cs (H1 & H2 & H3) H IH]; cbn; constructor; [cbn in *; lia|assumption]. }
      destruct (piece_in_range _ _ _ _ _ H1 Hrange Hlo Hhi) as [H3 H4].
      split; [|split; [|split; [exact H1|exact H2]]].
      - destruct Hlo as (q & Hq & _). assert (forall i p q, picks i p q -> length i = length p) as HL by (induction 1; simpl; congruence).
        apply HL in Hq. rewrite map_length in Hq. lia.
      - apply Hx; [|exact H4]. apply Forall2_map_l in H3. exact H3. }
    exists r. split; [exact Hr|]. split; [exact Hs|]. intros p Hpp. pose proof (Forall2_len _ _ _ Hpp) as Hl. rewrite map_length in Hl.
    apply Hval; [lia|]. destruct (Hcov p Hpp) as (k & (outsl & start & count & Hk & Hc) & _).
    exists outsl, start, count. split; [eapply elem_In, Hk|exact Hc].
Qed.

Lemma fetch_gen (x : var A V) D ms :
  (forallb (fun '(u, ind) => np_all_eq u ind) (combine (map np_unique ms) ms) = true ->
     exists r, read x (view_of_inds (var_axes x) ms) = Some r /\ array_is r (map zlen ms) (fun p => D (gather ms p))) ->
  (exists r, read x (view_of_inds (var_axes x) (map np_unique ms)) = Some r /\
     array_is r (map zlen (map np_unique ms)) (fun p => D (gather (map np_unique ms) p))) ->
  exists r, fetch x (view_of_inds (var_axes x) ms) = Some r /\ array_is r (map zlen ms) (fun p => D (gather ms p)).
Proof.
  intros H1 H2. unfold ViewModel.fetch. cbn [vinds vaxes view_of_inds].
  destruct (forallb _ _) eqn:E.
  - now apply H1.
  - destruct H2 as (r & Hr & Hs & Hv).
    rewrite Hr, Hs, !map_length, Nat.eqb_refl. eexists. split; [reflexivity|].
    assert (forall l, zlen (map (fun '(u, ind) => map (searchsorted u) ind) l) = zlen l) by (intros; apply zlen_map).
    split.
    + cbn [shape outer_index]. clear. induction ms as [|l ms IH]; [reflexivity|]. cbn. rewrite IH, zlen_map. reflexivity.
    + intros p Hp. cbn [val outer_index].
      set (dup := map (fun '(u, ind) => map (searchsorted u) ind) (combine (map np_unique ms) ms)).
      assert (Forall2 (fun l l' => in_range (zlen l) l') (map np_unique ms) dup) as Hdr.
      { unfold dup. clear. induction ms as [|l ms IH]; cbn; [constructor|]. constructor; [|exact IH].
        apply Forall_forall. intros y Hy. apply in_map_iff in Hy as (x & <- & Hx). eapply elem_lt, searchsorted_elem; [apply unique_sorted|now apply unique_In]. }
      assert (map zlen dup = map zlen ms) as Hdl.
      { unfold dup. clear. induction ms as [|l ms IH]; [reflexivity|]. cbn. rewrite IH, zlen_map. reflexivity. }
      rewrite Hv.
      * f_equal. rewrite gather_gather by (rewrite ?Hdl; assumption).
        f_equal. unfold dup. clear. induction ms as [|l ms IH]; [reflexivity|]. cbn. rewrite IH. f_equal.
        rewrite map_map. rewrite <- (map_id l) at 2. apply map_ext_in. intros x Hx. apply znth_elem, searchsorted_elem; [apply unique_sorted|now apply unique_In].
      * apply gather_position with (ns := map zlen (map np_unique ms)); [|now rewrite Hdl]. apply Forall2_map_l. exact Hdr.
Qed.

Lemma fetch_spec (x : var A V) D ms : represents ops x D ->
  Forall2 (fun a l => l <> [] /\ in_range (len ops a) l) (var_axes x) ms ->
  exists r, fetch x (view_of_inds (var_axes x) ms) = Some r /\ array_is r (map zlen ms) (fun p => D (gather ms p)).
Proof.
  intros Hx Hms. apply fetch_gen.
  - intros E. apply read_spec; [assumption|]. revert E. clear -Hms. induction Hms as [|a l axes ms [H1 H2] Hms IH]; intros E; [constructor|].
    cbn [map combine forallb] in E. apply andb_prop in E as [E1 E2]. constructor; [now apply np_all_eq_request|now apply IH].
  - apply (read_spec x D (map np_unique ms) Hx).
    apply Forall2_map_r. eapply Forall2_impl; [|exact Hms]. intros a l [H1 H2]. split; [now apply unique_ne|]. split; [now apply unique_range|].
    left. apply sorted_increasing, unique_sorted.
Qed.

(** ** map_to *)
(** view axis [i] supplies index list [m] for the variable axis [a] *)
Definition mapped (v : view A) (a : A) (im : nat * list Z) : Prop :=
  (exists sl, map_axis ops v true a = Some (sl, Some (fst im)) /\ expand sl (len ops a) = Some (snd im)) /\
  in_range (len ops a) (snd im) /\ (fst im < length (vaxes v))%nat /\ zlen (snd im) = zlen (nth (fst im) (vinds v) []).

Lemma map_to_spec v axes ims : Forall2 (mapped v) axes ims ->
  exists ms, map_to ops v axes true = Some (view_of_inds axes (map snd ims), build_order ms 0 (map (fun _ => None) (vaxes v))) /\
    map snd ms = map (fun im => Some (fst im)) ims.
Proof.
  intros H. unfold map_to.
  assert (exists ms, sequence (map (map_axis ops v true) axes) = Some ms /\ map snd ms = map (fun im => Some (fst im)) ims /\
            sequence (map (fun '(sl, a) => expand sl (len ops a)) (combine (map fst ms) axes)) = Some (map snd ims) /\ length ms = length axes) as (ms & H1 & H2 & H3 & H4).
  { induction H as [|a [i m] axes ims [(sl & Hm & He) _] H IH].
    - exists []. repeat split.
    - destruct IH as (ms & H1 & H2 & H3 & H4). exists ((sl, Some i) :: ms). cbn [map sequence combine fst snd]. cbn in Hm, He. rewrite Hm, H1, He, H3. cbn. rewrite H2. auto. }
  rewrite H1. unfold view_of_slices. rewrite map_length, H4, Nat.eqb_refl, H3. exists ms. split; [reflexivity|exact H2].
Qed.

Lemma nth_error_set_at {B} (l : list B) i j v : (i < length l)%nat -> nth_error (set_at l i v) j = if Nat.eqb i j then Some v else nth_error l j.
Proof. revert i j; induction l as [|a l IH]; intros [|i] [|j] H; simpl in *; try lia; try reflexivity. apply IH. lia. Qed.

Lemma build_order_spec : forall ms sigma k order, map snd ms = map Some sigma -> NoDup sigma ->
  Forall (fun i => (i < length order)%nat) sigma ->
  let r := build_order ms k order in
  length r = length order /\
  (forall j i, nth_error sigma j = Some i -> nth_error r i = Some (Some (k + j)%nat)) /\
  (forall i, ~ In i sigma -> nth_error r i = nth_error order i).
Proof.
  induction ms as [|[sl o] ms IH]; intros [|s sigma] k order E Hnd Hlt; try discriminate; cbn [build_order].
  - split; [reflexivity|]. split; [intros [|j] i; discriminate|reflexivity].
  - cbn in E. injection E as -> E. inversion Hnd; subst. inversion Hlt; subst.
    destruct (IH sigma (S k) (set_at order s (Some k)) E H2) as (Hl & Hin & Hout).
    { eapply Forall_impl; [|eassumption]. intros; now rewrite length_set_at. }
    rewrite length_set_at in Hl. split; [exact Hl|]. split.
    + intros [|j] i Hj; cbn in Hj.
      * injection Hj as ->. rewrite Hout by assumption. rewrite nth_error_set_at, Nat.eqb_refl by assumption. now rewrite Nat.add_0_r.
      * rewrite (Hin j i Hj). do 2 f_equal. lia.
    + intros i Hi. rewrite Hout by (intros ?; apply Hi; now right). rewrite nth_error_set_at by assumption.
      destruct (Nat.eqb_spec s i); [subst; exfalso; apply Hi; now left|reflexivity].
Qed.

Definition outshape (s : list Z) (sigma : list nat) : list Z :=
  map (fun '(i, n) => if existsb (Nat.eqb i) sigma then n else 1) (combine (seq 0 (length s)) s).

Lemma existsb_In i sigma : existsb (Nat.eqb i) sigma = true <-> In i sigma.
Proof. rewrite existsb_exists. split; [intros (x & H1 & H2%Nat.eqb_eq); now subst|intros; exists i; split; [assumption|apply Nat.eqb_refl]]. Qed.

Lemma nth_error_combine {B C} (l : list B) (l' : list C) i : nth_error (combine l l') i =
  match nth_error l i, nth_error l' i with Some a, Some b => Some (a, b) | _, _ => None end.
Proof. revert l' i; induction l as [|a l IH]; intros [|b l'] [|i]; simpl; try reflexivity; [now destruct (nth_error l i)|apply IH]. Qed.
Lemma nth_error_seq k n i : nth_error (seq k n) i = if Nat.ltb i n then Some (k + i)%nat else None.
Proof.
  revert k i; induction n as [|n IH]; intros k i; [now destruct i|]. destruct i as [|i]; cbn [nth_error seq]; [now rewrite Nat.add_0_r|]. rewrite IH.
  change (S i <? S n)%nat with (i <? n)%nat. destruct (i <? n)%nat; [|reflexivity]. now rewrite Nat.add_succ_r.
Qed.
Lemma nth_error_ext' {B} (l l' : list B) : (forall i, nth_error l i = nth_error l' i) -> l = l'.
Proof.
  revert l'; induction l as [|a l IH]; intros [|b l'] H; [reflexivity|specialize (H 0%nat); discriminate|specialize (H 0%nat); discriminate|].
  f_equal; [specialize (H 0%nat); cbn in H; congruence|]. apply IH. intros i. apply (H (S i)).
Qed.

Lemma outshape_order s sigma order : length order = length s -> NoDup sigma -> Forall (fun i => (i < length s)%nat) sigma ->
  (forall j i, nth_error sigma j = Some i -> nth_error order i = Some (Some j)) ->
  (forall i, (i < length s)%nat -> ~ In i sigma -> nth_error order i = Some None) ->
  shape_or_1 s order = outshape s sigma.
Proof.
  intros Hl Hnd Hlt H1 H2. apply nth_error_ext'. intros i. unfold shape_or_1, outshape. rewrite !nth_error_map, !nth_error_combine, nth_error_seq.
  destruct (Nat.ltb_spec i (length s)) as [Hi|Hi].
  - destruct (nth_error s i) as [n|] eqn:En; [|apply nth_error_None in En; lia].
    destruct (existsb (Nat.eqb i) sigma) eqn:E.
    + apply existsb_In in E. apply In_nth_error in E as [j Hj]. rewrite (H1 j i Hj). cbn. rewrite (proj2 (existsb_In i sigma)); [reflexivity|]. eapply nth_error_In, Hj.
    + rewrite H2; [cbn; now rewrite E|lia|]. intros Hin. apply existsb_In in Hin. congruence.
  - assert (nth_error s i = None) as -> by (apply nth_error_None; lia). reflexivity.
Qed.

Lemma somes_map_keep (f : nat -> Z) : forall order s, length order = length s ->
  (forall i j, nth_error order i = Some (Some j) -> f j = nth i s 0) -> map f (somes order) = keep order s.
Proof.
  induction order as [|[j|] order IH]; intros [|n s] Hl H; simpl in Hl; try lia; [reflexivity| |];
  unfold somes; cbn [flat_map app keep].
  - fold (somes order). cbn [map]. f_equal; [apply (H 0%nat j eq_refl)|]. apply IH; [lia|]. intros i k Hi. apply (H (S i) k Hi).
  - fold (somes order). apply IH; [lia|]. intros i k Hi. apply (H (S i) k Hi).
Qed.

Lemma NoDup_somes : forall order : list (option nat), (forall i i' j, nth_error order i = Some (Some j) -> nth_error order i' = Some (Some j) -> i = i') -> NoDup (somes order).
Proof.
  induction order as [|[j|] order IH]; intros H; unfold somes; cbn [flat_map app].
  - constructor.
  - fold (somes order). constructor.
    + intros Hin. apply In_somes in Hin as [i Hi]. specialize (H 0%nat (S i) j eq_refl Hi). discriminate.
    + apply IH. intros i i' k Hi Hi'. specialize (H (S i) (S i') k Hi Hi'). lia.
  - fold (somes order). apply IH. intros i i' k Hi Hi'. specialize (H (S i) (S i') k Hi Hi'). lia.
Qed.

Lemma position_nth s p i n : position s p -> nth_error s i = Some n -> 0 <= nth i p 0 < n.
Proof. intros H. revert i. induction H; intros [|i] Hi; simpl in *; try discriminate; [congruence|now apply IHForall2]. Qed.

Theorem get_fetch axes inds (x : var A V) D ims : length inds = length axes ->
  (exists r, fetch x (view_of_inds (var_axes x) (map snd ims)) = Some r /\ array_is r (map zlen (map snd ims)) (fun p => D (gather (map snd ims) p))) ->
  let v := view_of_inds axes inds in
  Forall2 (mapped v) (var_axes x) ims -> NoDup (map fst ims) ->
  Forall (fun l => l <> []) (map snd ims) ->
  exists r, get v x true true = Some r /\
    array_is r (outshape (map zlen inds) (map fst ims))
      (fun p => D (gather (map snd ims) (map (fun i => nth i p 0) (map fst ims)))).
Proof.
  intros Hlen Hx v Hm Hnd Hne. unfold ViewModel.get. cbn [negb andb].
  destruct (map_to_spec v (var_axes x) ims Hm) as (ms & -> & Hms).
  set (sigma := map fst ims) in *. set (mm := map snd ims) in *.
  assert (length mm = length (var_axes x)) as Hml by (unfold mm; rewrite map_length; symmetry; eapply Forall2_len, Hm).
  assert (length sigma = length mm) as Hsl by (unfold sigma, mm; now rewrite !map_length).
  destruct (existsb (Z.eqb 0) (vshape (view_of_inds (var_axes x) mm))) eqn:E0.
  { exfalso. apply existsb_exists in E0 as (n & Hn & E%Z.eqb_eq). subst n. unfold vshape in Hn. cbn in Hn. apply in_map_iff in Hn as (l & Hl & Hin).
    apply (proj1 (Forall_forall _ _) Hne) in Hin. destruct l as [|z l]; [congruence|]. rewrite zlen_cons in Hl. pose proof (zlen_nonneg l). lia. }
  destruct Hx as (a & Ha & Hs & Hv). fold mm in Ha, Hs, Hv.
  rewrite Ha, Hs, map_length, Hml, Nat.eqb_refl. cbn [negb andb].
  destruct (list_eq_dec Z.eq_dec _ _) as [_|Hneq]; [|exfalso; apply Hneq; reflexivity]. cbn [negb].
  assert (Forall (fun i => (i < length (map (fun _ : A => @None nat) (vaxes v)))%nat) sigma) as Hlt.
  { unfold sigma. apply Forall_forall. intros i Hi. apply in_map_iff in Hi as (im & <- & Him).
    apply (Forall2_In_r _ _ _ _ Hm) in Him as (b & _ & _ & _ & H & _). now rewrite map_length. }
  assert (map snd ms = map Some sigma) as Hms' by (rewrite Hms; unfold sigma; now rewrite map_map).
  destruct (build_order_spec ms sigma 0 _ Hms' Hnd Hlt) as (Hol & Hoin & Hoout).
  set (order := build_order ms 0 (map (fun _ => None) (vaxes v))) in *. rewrite map_length in Hol, Hlt.
  assert (length order = length axes) as Hol' by (rewrite Hol; reflexivity).
  assert (forall i j, nth_error order i = Some (Some j) -> nth_error sigma j = Some i) as Hinv.
  { intros i j Hi. destruct (in_dec Nat.eq_dec i sigma) as [Hin|Hin].
    - apply In_nth_error in Hin as [j' Hj']. rewrite (Hoin j' i Hj') in Hi. injection Hi as <-. exact Hj'.
    - rewrite Hoout in Hi by assumption. rewrite nth_error_map in Hi. destruct (nth_error (vaxes v) i); discriminate. }
  assert (forall j i, nth_error sigma j = Some i -> exists m, nth_error mm j = Some m /\ zlen m = zlen (nth i inds [])) as Hz.
  { intros j i Hj. unfold sigma in Hj. rewrite nth_error_map in Hj. destruct (nth_error ims j) as [[i' m]|] eqn:Ej; [|discriminate]. cbn in Hj. injection Hj as ->.
    exists m. split; [unfold mm; now rewrite nth_error_map, Ej|]. apply nth_error_In in Ej. apply (Forall2_In_r _ _ _ _ Hm) in Ej as (b & _ & _ & _ & _ & H). exact H. }
  assert (is_perm (length mm) (somes order) = true) as Hperm.
  { unfold is_perm. assert (Permutation (somes order) (seq 0 (length mm))) as HP.
    { apply NoDup_Permutation; [|apply seq_NoDup|].
      - apply NoDup_somes. intros i i' j Hi Hi'. apply Hinv in Hi, Hi'. congruence.
      - intros j. rewrite In_somes, in_seq. split.
        + intros [i Hi]. apply Hinv in Hi. assert (nth_error sigma j <> None) as Hs' by congruence. apply nth_error_Some in Hs'. lia.
        + intros Hj. destruct (nth_error sigma j) as [i|] eqn:Ej; [|apply nth_error_None in Ej; lia]. exists i. now apply Hoin. }
    rewrite (Permutation_length HP), seq_length, Nat.eqb_refl. cbn. apply forallb_forall. intros j Hj. apply existsb_In. eapply Permutation_in; [symmetry; exact HP|exact Hj]. }
  unfold transpose. rewrite Hs, map_length, Hperm.
  assert (map (fun j => nth j (map zlen mm) 0) (somes order) = keep order (map zlen inds)) as Hshape.
  { apply somes_map_keep; [rewrite map_length; lia|]. intros i j Hi. apply Hinv in Hi. destruct (Hz j i Hi) as (m & Hmj & Hzz).
    rewrite (nth_error_nth (map zlen mm) j 0 (x := zlen m)) by (now rewrite nth_error_map, Hmj).
    rewrite Hzz. destruct (nth_error inds i) as [l|] eqn:Ei.
    - rewrite (nth_error_nth _ _ _ Ei). symmetry. apply nth_error_nth. now rewrite nth_error_map, Ei.
    - apply nth_error_None in Ei. rewrite !nth_overflow by (rewrite ?map_length; lia). reflexivity. }
  rewrite Hshape. change (vshape v) with (map zlen inds).
  unfold reshape. cbn [shape val].
  assert (length (map zlen inds) = length order) as Hlo by (rewrite map_length; lia).
  rewrite prod_keep, Z.eqb_refl by assumption. eexists. split; [reflexivity|].
  assert (shape_or_1 (map zlen inds) order = outshape (map zlen inds) sigma) as Hos.
  { apply outshape_order; [lia|assumption| |exact Hoin|].
    - rewrite map_length, Hlen. exact Hlt.
    - intros i Hi Hn. rewrite Hoout by assumption. rewrite nth_error_map. rewrite map_length, Hlen in Hi.
      destruct (nth_error (vaxes v) i) eqn:Ei; [reflexivity|]. apply nth_error_None in Ei. cbn in Ei. lia. }
  split; [exact Hos|]. intros p Hp. cbn [val]. rewrite <- Hos in Hp.
  destruct (keep_position (map zlen inds) order p Hlo Hp) as [Hk1 Hk2]. rewrite Hk2, unravel_ravel by assumption.
  assert (map (fun j => nth (index_of j (somes order)) (keep order p) 0) (seq 0 (length mm)) = map (fun i => nth i p 0) sigma) as Hq.
  { apply nth_error_ext'. intros j. rewrite !nth_error_map, nth_error_seq. destruct (Nat.ltb_spec j (length mm)).
    - destruct (nth_error sigma j) as [i|] eqn:Ej; [|apply nth_error_None in Ej; lia]. cbn. f_equal. apply index_of_keep.
      + now apply Hoin.
      + pose proof (Forall2_len _ _ _ Hp) as Hpl. unfold shape_or_1 in Hpl. rewrite map_length, combine_length in Hpl. lia.
      + intros i' Hi'. apply Hinv in Hi'. congruence.
    - assert (nth_error sigma j = None) as -> by (apply nth_error_None; lia). reflexivity. }
  rewrite Hq. apply Hv. apply Forall2_intro_nth; [rewrite !map_length; lia|].
  intros j n y Hn Hy. rewrite nth_error_map in Hn, Hy. destruct (nth_error mm j) as [m|] eqn:Em; [|discriminate]. destruct (nth_error sigma j) as [i|] eqn:Ei; [|discriminate].
  cbn in Hn, Hy. injection Hn as <-. injection Hy as <-. destruct (Hz j i Ei) as (m' & Hm' & Hzm). assert (m' = m) as -> by congruence. rewrite Hzm.
  eapply position_nth; [exact Hp|]. rewrite Hos. unfold outshape. rewrite nth_error_map, nth_error_combine, nth_error_seq.
  pose proof (proj1 (Forall_forall _ _) Hlt i (nth_error_In _ _ Ei)) as Hi. cbn in Hi. rewrite map_length, Hlen.
  destruct (Nat.ltb_spec i (length axes)); [|lia]. rewrite nth_error_map.
  destruct (nth_error inds i) as [l|] eqn:El; [|apply nth_error_None in El; lia]. cbn.
  rewrite (proj2 (existsb_In i sigma)) by (eapply nth_error_In, Ei). rewrite (nth_error_nth _ _ _ El). reflexivity.
Qed.

Theorem get_spec axes inds (x : var A V) D ims : length inds = length axes -> represents ops x D ->
  let v := view_of_inds axes inds in
  Forall2 (mapped v) (var_axes x) ims -> NoDup (map fst ims) ->
  Forall (fun l => l <> []) (map snd ims) ->
  exists r, get v x true true = Some r /\
    array_is r (outshape (map zlen inds) (map fst ims))
      (fun p => D (gather (map snd ims) (map (fun i => nth i p 0) (map fst ims)))).
Proof.
  intros Hlen Hx v Hm Hnd Hne. apply get_fetch; auto. apply fetch_spec; [exact Hx|].
  apply Forall2_map_r. apply Forall2_intro_nth; [eapply Forall2_len, Hm|]. intros i b [k m] Hb Hi.
  pose proof (Forall2_nth_error _ _ _ _ _ _ Hm Hb Hi) as (_ & Hr & _). split; [|exact Hr].
  apply (proj1 (Forall_forall _ _) Hne). apply in_map_iff. exists (k, m). split; [reflexivity|eapply nth_error_In, Hi].
Qed.

(** ** the view's axes are the variable's axes *)
Definition separate_axes (axes : list A) : Prop :=
  forall i j a b, nth_error axes i = Some a -> nth_error axes j = Some b -> same ops a b = true <-> i = j.

Lemma find_first_spec {B C} (f : B -> option C) l i c : find_first f l = Some (i, c) <->
  (exists b, nth_error l i = Some b /\ f b = Some c) /\ (forall j b, (j < i)%nat -> nth_error l j = Some b -> f b = None).
Proof.
  revert i. induction l as [|b l IH]; intros i; cbn [find_first].
  - split; [discriminate|]. intros [(b & Hb & _) _]. destruct i; discriminate.
  - destruct (f b) as [c'|] eqn:E.
    + split.
      * intros [= <- <-]. split; [exists b; split; [reflexivity|assumption]|]. intros; lia.
      * intros [(b' & Hb & Hf) Hn]. destruct i as [|i]; [cbn in Hb; congruence|]. specialize (Hn 0%nat b ltac:(lia) eq_refl). congruence.
    + destruct (find_first f l) as [[i' c']|] eqn:F.
      * pose proof (proj1 (IH i') (f_equal _ eq_refl)) as [(b' & Hb' & Hf') Hn'] || idtac.
        split.
        -- intros [= <- <-]. destruct (proj1 (IH i')) as [(b1 & Hb1 & Hf1) Hn1]; [reflexivity|]. split; [exists b1; split; assumption|].
           intros [|j] b2 Hj Hb2; [cbn in Hb2; congruence|]. apply (Hn1 j b2); [lia|exact Hb2].
        -- intros [(b1 & Hb1 & Hf1) Hn1]. destruct i as [|i]; [cbn in Hb1; congruence|].
           assert (Some (i', c') = Some (i, c)) as Heq.
           { apply IH. split; [exists b1; split; assumption|]. intros j b2 Hj Hb2. apply (Hn1 (S j) b2); [lia|exact Hb2]. }
           congruence.
      * split; [discriminate|]. intros [(b1 & Hb1 & Hf1) Hn1]. destruct i as [|i]; [cbn in Hb1; congruence|].
        assert (None = Some (i, c)) as Heq; [|discriminate]. apply IH. split; [exists b1; split; assumption|].
        intros j b2 Hj Hb2. apply (Hn1 (S j) b2); [lia|exact Hb2].
Qed.

Lemma nth_simplify inds i l : nth_error inds i = Some l -> nth i (map simplify inds) (SList []) = simplify l.
Proof. intros H. apply nth_error_nth. now rewrite nth_error_map, H. Qed.

(** a variable axis that equals view axis [i] is mapped to it with the view's own indices *)
Lemma mapped_same axes inds a i b l : length inds = length axes ->
  nth_error axes i = Some b -> nth_error inds i = Some l -> same ops a b = true ->
  (forall j b', (j < i)%nat -> nth_error axes j = Some b' -> same ops a b' = false) ->
  in_range (len ops a) l ->
  mapped (view_of_inds axes inds) a (i, l).
Proof.
  intros Hlen Hb Hl Hs Hn Hr. split; [|split; [exact Hr|split]].
  - exists (simplify l). cbn [fst snd]. unfold map_axis. cbn [vaxes view_of_inds vslices].
    rewrite (proj2 (find_first_spec (fun a0 => if same ops a a0 then Some tt else None) axes i tt)).
    + rewrite (nth_simplify _ _ _ Hl). split; [reflexivity|]. apply expand_simplify. eapply Forall_impl; [|exact Hr]. intros; simpl in *; lia.
    + split; [exists b; rewrite Hs; auto|]. intros j b' Hj Hb'. now rewrite (Hn j b' Hj Hb').
  - cbn. apply nth_error_Some. congruence.
  - cbn. now rewrite (nth_error_nth _ _ _ Hl).
Qed.

Lemma gather_nth_seq inds p : length p = length inds ->
  gather inds (map (fun i => nth i p 0) (seq 0 (length inds))) = gather inds p.
Proof.
  intros H. f_equal. rewrite <- H. clear. induction p as [|x p IH]; [reflexivity|]. cbn [length seq map nth]. f_equal. rewrite <- seq_shift, map_map. exact IH.
Qed.

Theorem get_same_axes (x : var A V) D inds : represents ops x D -> separate_axes (var_axes x) ->
  Forall2 (fun a l => l <> [] /\ in_range (len ops a) l) (var_axes x) inds ->
  exists r, get (view_of_inds (var_axes x) inds) x true true = Some r /\
    array_is r (map zlen inds) (fun p => D (gather inds p)).
Proof.
  intros Hx Hsep Hr. pose proof (Forall2_len _ _ _ Hr) as Hlen.
  assert (map fst (combine (seq 0 (length inds)) inds) = seq 0 (length inds)) as Hfst.
  { assert (forall (l : list nat) (l' : list (list Z)), length l = length l' -> map fst (combine l l') = l) as HH
      by (induction l; intros [|? ?] E; simpl in *; try lia; [reflexivity|f_equal; auto]).
    apply HH. now rewrite seq_length. }
  assert (map snd (combine (seq 0 (length inds)) inds) = inds) as Hsnd.
  { assert (forall (l : list nat) (l' : list (list Z)), length l = length l' -> map snd (combine l l') = l') as HH
      by (induction l; intros [|? ?] E; simpl in *; try lia; [reflexivity|f_equal; auto]).
    apply HH. now rewrite seq_length. }
  destruct (get_spec (var_axes x) inds x D (combine (seq 0 (length inds)) inds)) as (r & Hget & Hs & Hv).
  - now symmetry.
  - assumption.
  - apply Forall2_intro_nth; [rewrite combine_length, seq_length; lia|]. intros i a [k l] Ha Hi.
    rewrite nth_error_combine, nth_error_seq in Hi. destruct (Nat.ltb_spec i (length inds)) as [Hi'|]; [|discriminate].
    destruct (nth_error inds i) as [l'|] eqn:El; [|discriminate]. injection Hi as <- <-. cbn [Nat.add].
    eapply mapped_same; [now symmetry|exact Ha|exact El| | |].
    + apply (Hsep i i a a); auto.
    + intros j b' Hj Hb'. destruct (same ops a b') eqn:E; [|reflexivity]. apply (Hsep i j a b' Ha Hb') in E. lia.
    + apply (Forall2_nth_error _ _ _ _ _ _ Hr Ha El).
  - rewrite Hfst. apply seq_NoDup.
  - rewrite Hsnd. apply Forall_forall. intros l Hl. apply (Forall2_In_r _ _ _ _ Hr) in Hl as (a & _ & H & _). exact H.
  - exists r. split; [exact Hget|]. rewrite Hfst, Hsnd in *.
    assert (outshape (map zlen inds) (seq 0 (length inds)) = map zlen inds) as Ho.
    { apply nth_error_ext'. intros i. unfold outshape. rewrite nth_error_map, nth_error_combine, nth_error_seq, map_length.
      destruct (Nat.ltb_spec i (length inds)).
      - rewrite nth_error_map. destruct (nth_error inds i) as [l|]; [|reflexivity]. cbn.
        rewrite (proj2 (existsb_In i (seq 0 (length inds)))) by (apply in_seq; lia). reflexivity.
      - symmetry. apply nth_error_None. rewrite map_length. lia. }
    rewrite Ho in Hs, Hv. split; [exact Hs|]. intros p Hp. rewrite (Hv p Hp), gather_nth_seq; [reflexivity|].
    pose proof (Forall2_len _ _ _ Hp). rewrite map_length in *. lia.
Qed.

(** the data of the mapped view as such: no axis is moved (view.get(var, strict, conform=False)) *)
Lemma get_raw v strict (x : var A V) D mm : represents ops x D ->
  Forall2 (fun a m => exists sl oi, map_axis ops v strict a = Some (sl, oi) /\ expand sl (len ops a) = Some m /\
                                    m <> [] /\ in_range (len ops a) m) (var_axes x) mm ->
  exists r, get v x strict false = Some r /\ array_is r (map zlen mm) (fun p => D (gather mm p)).
Proof.
  intros Hx Hm. unfold ViewModel.get. rewrite andb_false_r.
  assert (exists ms, sequence (map (map_axis ops v strict) (var_axes x)) = Some ms /\ length ms = length (var_axes x) /\
            sequence (map (fun '(sl, a) => expand sl (len ops a)) (combine (map fst ms) (var_axes x))) = Some mm) as (ms & H1 & H2 & H3).
  { clear -Hm. induction Hm as [|a m axs mm (sl & oi & E1 & E2 & _) Hm (ms & I1 & I2 & I3)]; [exists []; auto|].
    exists ((sl, oi) :: ms). cbn [map sequence fst combine length]. rewrite E1, I1, E2, I3. auto. }
  unfold map_to. rewrite H1. unfold view_of_slices. rewrite map_length, H2, Nat.eqb_refl, H3.
  change (MkView (var_axes x) (map simplify mm) mm) with (view_of_inds (var_axes x) mm).
  assert (Forall (fun l => l <> []) mm) as Hne.
  { apply Forall_forall. intros l Hl. apply (Forall2_In_r _ _ _ _ Hm) in Hl as (a & _ & _ & _ & _ & _ & H & _). exact H. }
  destruct (existsb (Z.eqb 0) (vshape (view_of_inds (var_axes x) mm))) eqn:E0.
  { exfalso. apply existsb_exists in E0 as (n & Hn & E%Z.eqb_eq). subst n. unfold vshape in Hn. cbn in Hn. apply in_map_iff in Hn as (l & Hl & Hin).
    apply (proj1 (Forall_forall _ _) Hne) in Hin. destruct l as [|z l]; [congruence|]. rewrite zlen_cons in Hl. pose proof (zlen_nonneg l). lia. }
  destruct (fetch_spec x D mm Hx) as (a & Ha & Hs & Hv).
  { eapply Forall2_impl; [|exact Hm]. intros b m (_ & _ & _ & _ & H). exact H. }
  rewrite Ha, Hs, map_length, (Forall2_len _ _ _ Hm), Nat.eqb_refl. cbn [negb].
  destruct (list_eq_dec Z.eq_dec _ _) as [_|Hneq]; [|exfalso; apply Hneq; reflexivity]. rewrite andb_false_r.
  exists a. split; [reflexivity|split; assumption].
Qed.

(** a view of the variable's own axes that selects nothing *)
Theorem get_own_empty (x : var A V) (D : list Z -> V) inds : separate_axes (var_axes x) ->
  Forall2 (fun a l => in_range (len ops a) l) (var_axes x) inds -> existsb (Z.eqb 0) (map zlen inds) = true ->
  exists r, get (view_of_inds (var_axes x) inds) x true true = Some r /\
    array_is r (map zlen inds) (fun p => D (gather inds p)).
Proof.
  intros Hsep Hr E0.
  pose proof (Forall2_len _ _ _ Hr) as Hlen.
  assert (map fst (combine (seq 0 (length inds)) inds) = seq 0 (length inds)) as Hfst.
  { assert (forall (l : list nat) (l' : list (list Z)), length l = length l' -> map fst (combine l l') = l) as HH
      by (induction l; intros [|? ?] E; simpl in *; try lia; [reflexivity|f_equal; auto]).
    apply HH. now rewrite seq_length. }
  assert (map snd (combine (seq 0 (length inds)) inds) = inds) as Hsnd.
  { assert (forall (l : list nat) (l' : list (list Z)), length l = length l' -> map snd (combine l l') = l') as HH
      by (induction l; intros [|? ?] E; simpl in *; try lia; [reflexivity|f_equal; auto]).
    apply HH. now rewrite seq_length. }
  set (v := view_of_inds (var_axes x) inds).
  destruct (map_to_spec v (var_axes x) (combine (seq 0 (length inds)) inds)) as (ms & Hms & Hsn).
  { apply Forall2_intro_nth; [rewrite combine_length, seq_length; lia|]. intros i a [k l] Ha Hi.
    rewrite nth_error_combine, nth_error_seq in Hi. destruct (Nat.ltb_spec i (length inds)) as [Hi'|]; [|discriminate].
    destruct (nth_error inds i) as [l'|] eqn:El; [|discriminate]. injection Hi as <- <-. cbn [Nat.add].
    eapply mapped_same; [now symmetry|exact Ha|exact El| | |].
    + apply (Hsep i i a a); auto.
    + intros j b' Hj Hb'. destruct (same ops a b') eqn:E; [|reflexivity]. apply (Hsep i j a b' Ha Hb') in E. lia.
    + apply (Forall2_nth_error _ _ _ _ _ _ Hr Ha El). }
  unfold ViewModel.get. cbn [negb andb]. rewrite Hms, Hsnd. change (vshape (view_of_inds (var_axes x) inds)) with (map zlen inds). rewrite E0.
  eexists. split; [reflexivity|]. split.
  - cbn [shape]. assert (map snd ms = map Some (seq 0 (length inds))) as Hms'.
    { rewrite Hsn. rewrite <- Hfst at 2. now rewrite map_map. }
    destruct (build_order_spec ms (seq 0 (length inds)) 0 (map (fun _ => None) (vaxes v)) Hms' (seq_NoDup _ _)) as (Hol & Hoin & _).
    { apply Forall_forall. intros i Hi. apply in_seq in Hi. rewrite map_length. cbn. lia. }
    set (order := build_order ms 0 (map (fun _ => None) (vaxes v))) in *. rewrite map_length in Hol. cbn in Hol.
    apply nth_error_ext'. intros i. unfold shape_or_1. rewrite nth_error_map, nth_error_combine.
    destruct (Nat.ltb_spec i (length inds)) as [Hi|Hi].
    + assert (nth_error (seq 0 (length inds)) i = Some i) as Es by (rewrite nth_error_seq; destruct (Nat.ltb_spec i (length inds)); [reflexivity|lia]).
      rewrite (Hoin i i Es). destruct (nth_error (map zlen inds) i); reflexivity.
    + assert (nth_error (map zlen inds) i = None) as -> by (apply nth_error_None; rewrite map_length; lia). reflexivity.
  - intros p Hp. exfalso. apply existsb_exists in E0 as (n & Hn & E%Z.eqb_eq). subst n. apply In_nth_error in Hn as [i Hi].
    pose proof (position_nth _ _ _ _ Hp Hi). lia.
Qed.
(** a view of the variable's own axes, with empty selections allowed *)
Theorem get_own_axes (x : var A V) D inds : represents ops x D -> separate_axes (var_axes x) ->
  Forall2 (fun a l => in_range (len ops a) l) (var_axes x) inds ->
  exists r, get (view_of_inds (var_axes x) inds) x true true = Some r /\
    array_is r (map zlen inds) (fun p => D (gather inds p)).
Proof.
  intros Hx Hsep Hr. destruct (existsb (Z.eqb 0) (map zlen inds)) eqn:E0; [now apply get_own_empty|].
  apply get_same_axes; auto. apply Forall2_intro_nth; [eapply Forall2_len, Hr|]. intros i a l Ha Hl.
  split; [|exact (Forall2_nth_error _ _ _ _ _ _ Hr Ha Hl)]. intros ->. apply not_true_iff_false in E0. apply E0. apply existsb_exists.
  exists 0. split; [|reflexivity]. apply in_map_iff. exists []. split; [reflexivity|]. eapply nth_error_In, Hl.
Qed.

End View.
