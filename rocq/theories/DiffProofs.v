(** Proofs for C35. *)
From Coq Require Import ZArith List Bool Lia.
From Verif Require Import SortSpec IndexModel IndexSpec IndexProofs ArrModel ArrProofs ViewModel ViewSpec ViewProofs ChunkProofs
     AxisModel AxisSpec AxisProofs VarOpsModel VarOpsSpec VarOpsProofs ReduceModel ReduceSpec LoopProofs RespondProofs UfuncModel UfuncView NumModel StencilModel StencilSpec StencilProofs.
Import ListNotations.
Open Scope Z_scope.

Lemma difference_shift {V} (minus : V -> V -> V) n f i : difference minus n (fun k => minus (f (k + 1)) (f k)) i = minus (difference minus n f (i + 1)) (difference minus n f i).
Proof. revert i; induction n as [|n IH]; intros i; cbn; [reflexivity|]. now rewrite !IH. Qed.
Lemma difference_ext {V} (minus : V -> V -> V) n f g : forall i i', (forall j, 0 <= j <= Z.of_nat n -> f (i + j) = g (i' + j)) -> difference minus n f i = difference minus n g i'.
Proof.
  induction n as [|n IH]; intros i i' H; cbn [difference].
  - specialize (H 0 ltac:(lia)). now rewrite !Z.add_0_r in H.
  - f_equal; apply IH; intros j Hj.
    + rewrite <- !Z.add_assoc. apply H. lia.
    + apply H. lia.
Qed.

(** *** differences of arrays *)
Lemma nth_error_nthZ s d n : nth_error s d = Some n -> nth d s 0 = n.
Proof. apply nth_error_nth. Qed.
Lemma in_range_arange s e n : 0 <= s -> e <= n -> in_range n (arange s e 1).
Proof. intros H1 H2. apply Forall_forall. intros k Hk. apply In_elem in Hk as (j & Hj). apply elem_arange in Hj; lia. Qed.
Lemma take_array {V} s d n (r : arr V) E idx : array_is r s E -> nth_error s d = Some n -> in_range n idx ->
  array_is (take_axis r d idx) (set_at s d (zlen idx)) (fun p => E (set_at p d (znth idx (nth d p 0)))).
Proof.
  intros H Hn Hr. destruct (take_shows s d n r E idx (shows_array _ _ _ H)) as [K _]; [unfold along; now rewrite (proj1 H)|exact Hn|exact Hr|].
  apply array_shows; [exact K|]. cbn. now rewrite (proj1 H).
Qed.
Section Diff.
Context {V : Type} (minus : V -> V -> V).
Lemma diff_once s d m (r : arr V) (F : list Z -> Z -> V) : (d < length s)%nat -> (forall p i j, F (set_at p d j) i = F p i) -> 0 < m ->
  array_is r (set_at s d m) (fun p => F p (nth d p 0)) ->
  exists b, op2 minus (from_second r d) (but_last r d) = Some b /\
    array_is b (set_at s d (m - 1)) (fun p => minus (F p (nth d p 0 + 1)) (F p (nth d p 0))).
Proof.
  intros Hd HF Hm Hr. assert (nth_error (set_at s d m) d = Some m) as Hn by (rewrite nth_error_set_at by exact Hd; now rewrite Nat.eqb_refl).
  assert (nth d (shape r) 0 = m) as En by (rewrite (proj1 Hr); now apply nth_error_nth).
  unfold from_second, but_last. rewrite En.
  pose proof (take_array _ d m r _ (arange 1 m 1) Hr Hn (in_range_arange 1 m m ltac:(lia) ltac:(lia))) as A1.
  pose proof (take_array _ d m r _ (arange 0 (m - 1) 1) Hr Hn (in_range_arange 0 (m - 1) m ltac:(lia) ltac:(lia))) as A2.
  rewrite set_at_set, zlen_arange1 in A1, A2 by lia. rewrite Z.sub_0_r in A2.
  destruct (op2_shows minus _ _ _ _ _ (shows_array _ _ _ A1) (shows_array _ _ _ A2)) as (b & Hb & Hs & Hf).
  exists b. split; [exact Hb|]. eapply array_is_ext; [apply array_shows; [exact Hs|apply Hf; left; apply A1]|]. cbv beta. intros p Hp.
  assert (d < length p)%nat as Hdp by (rewrite <- (Forall2_len _ _ _ Hp), length_set_at; exact Hd).
  assert (0 <= nth d p 0 < m - 1) as Hk by (eapply position_at; [exact Hp|]; rewrite nth_error_set_at by exact Hd; now rewrite Nat.eqb_refl).
  rewrite !HF, !nth_set_same by exact Hdp. rewrite !znth_arange1 by lia. f_equal; f_equal; lia.
Qed.
Lemma np_diff_spec s d n : (d < length s)%nat -> forall m (r : arr V) (F : list Z -> Z -> V), (forall p i j, F (set_at p d j) i = F p i) -> Z.of_nat n <= m ->
  array_is r (set_at s d m) (fun p => F p (nth d p 0)) ->
  exists b, np_diff minus n r d = Some b /\ array_is b (set_at s d (m - Z.of_nat n)) (fun p => difference minus n (F p) (nth d p 0)).
Proof.
  intros Hd. induction n as [|n IH]; intros m r F HF Hm Hr.
  - exists r. split; [reflexivity|]. cbn [difference]. now rewrite Z.sub_0_r.
  - destruct (diff_once s d m r F Hd HF ltac:(lia) Hr) as (b & Hb & Hbi). cbn [np_diff]. rewrite Hb. cbn [bind].
    destruct (IH (m - 1) b (fun p k => minus (F p (k + 1)) (F p k))) as (c & Hc & Hci); [intros p i j; cbv beta; now rewrite !HF|lia|exact Hbi|].
    exists c. split; [exact Hc|]. replace (m - Z.of_nat (S n)) with (m - 1 - Z.of_nat n) by lia.
    eapply array_is_ext; [exact Hci|]. cbv beta. intros p _. now rewrite difference_shift.
Qed.
End Diff.

(** *** the points that are requested *)
Lemma fold_union_In l : forall u x, In x (fold_left union1d l u) <-> In x u \/ exists m, In m l /\ In x m.
Proof.
  induction l as [|a l IH]; intros u x; cbn [fold_left]; [split; [now left|]; intros [H|(m & [] & _)]; exact H|].
  rewrite IH, union1d_In. split.
  - intros [[H|H]|(m & H1 & H2)]; [now left|right; exists a; split; [now left|exact H]|right; exists m; split; [now right|exact H2]].
  - intros [H|(m & [<-|H1] & H2)]; [tauto|tauto|right; eauto].
Qed.
Lemma fold_union_sorted l : forall u, sorted u -> sorted (fold_left union1d l u).
Proof. induction l as [|a l IH]; intros u H; [exact H|]. cbn. apply IH, union1d_sorted. Qed.
Lemma searchsorted_next u x : sorted u -> In x u -> searchsorted u (x + 1) = searchsorted u x + 1.
Proof.
  unfold searchsorted, zlen. induction 1 as [|a u Ha Hu IH]; intros Hi; [destruct Hi|]. cbn [filter]. destruct Hi as [->|Hi].
  - destruct (Z.ltb_spec x (x + 1)); [|lia]. destruct (Z.ltb_spec x x); [lia|].
    assert (forall y, (forall b, In b u -> y <= b) -> filter (fun b => b <? y) u = []) as K.
    { clear. induction u as [|b u IH]; intros y H; [reflexivity|]. cbn. destruct (Z.ltb_spec b y); [pose proof (H b (or_introl eq_refl)); lia|]. apply IH. intros c Hc. apply H. now right. }
    rewrite !K; [reflexivity| |]; intros b Hb; specialize (Ha b Hb); lia.
  - specialize (Ha x Hi). destruct (Z.ltb_spec a (x + 1)); [|lia]. destruct (Z.ltb_spec a x); [|lia]. cbn [length]. specialize (IH Hi). lia.
Qed.
Lemma searchsorted_run u x n : sorted u -> (forall j, 0 <= j <= n -> In (x + j) u) -> forall j, 0 <= j <= n -> searchsorted u (x + j) = searchsorted u x + j.
Proof.
  intros Hs H. assert (forall k : nat, Z.of_nat k <= n -> searchsorted u (x + Z.of_nat k) = searchsorted u x + Z.of_nat k) as K.
  { induction k as [|k IH]; intros Hk; [now rewrite !Z.add_0_r|]. replace (x + Z.of_nat (S k)) with (x + Z.of_nat k + 1) by lia.
    rewrite searchsorted_next; [|exact Hs|apply H; lia]. rewrite IH by lia. lia. }
  intros j Hj. specialize (K (Z.to_nat j)). rewrite Z2Nat.id in K by lia. now apply K.
Qed.
Lemma union_points left n : 0 < n -> left <> [] -> exists u,
  union_all (map (fun i => map (fun l => l + i) left) (arange 0 (n + 1) 1)) = Some u /\ sorted u /\
  (forall x, In x u <-> exists l j, In l left /\ 0 <= j <= n /\ x = l + j).
Proof.
  intros Hn Hl. assert (arange 0 (n + 1) 1 = 0 :: 1 :: arange 2 (n + 1) 1) as Ea.
  { apply list_ext. intros k x. rewrite !elem_cons, !elem_arange by lia. lia. }
  set (f := fun i => map (fun l => l + i) left).
  assert (forall x m, In m (map f (arange 0 (n + 1) 1)) /\ In x m <-> exists l j, m = f j /\ In l left /\ 0 <= j <= n /\ x = l + j) as K.
  { intros x m. split.
    - intros [H1 H2]. apply in_map_iff in H1 as (j & <- & Hj). apply in_map_iff in H2 as (l & <- & Hl'). exists l, j. repeat split; auto; apply In_elem in Hj as (k & Hk); apply elem_arange in Hk; lia.
    - intros (l & j & -> & H1 & H2 & ->). split; [apply in_map; apply (elem_In _ j); apply elem_arange; lia|]. apply in_map_iff. exists l. auto. }
  rewrite Ea in *. cbn [map union_all] in *. eexists. split; [reflexivity|]. split.
  - cbn [fold_left]. apply fold_union_sorted, union1d_sorted.
  - intros x. rewrite fold_union_In. split.
    + intros H. assert (exists m, In m (f 0 :: f 1 :: map f (arange 2 (n + 1) 1)) /\ In x m) as (m & Hm).
      { destruct H as [H|(m & H1 & H2)]; [exists (f 0); split; [now left|exact H]|exists m; split; [now right|exact H2]]. }
      apply K in Hm as (l & j & _ & H'). exists l, j. exact H'.
    + intros (l & j & H'). destruct (proj2 (K x (f j))) as [[E|H1] H2]; [exists l, j; split; [reflexivity|exact H']| |].
      * left. now rewrite E.
      * right. exists (f j). auto.
Qed.

Section Var.
Context {V : Type} (env : axenv) (Henv : env_ok env) (junk : list Z -> V) (minus : V -> V -> V).
Notation get := (ViewModel.get (axis_ops env) junk).

Lemma separate_set axes d a b : separate axes -> nth_error axes d = Some a ->
  (forall c, unrelated a c -> unrelated b c) -> (forall c, unrelated c a -> unrelated c b) -> separate (set_at axes d b).
Proof.
  intros H Ha H1 H2 i j c e Hc He Hne. assert (d < length axes)%nat as Hd by (apply nth_error_Some; congruence).
  rewrite nth_error_set_at in Hc, He by exact Hd. destruct (Nat.eqb_spec d i) as [Hi|Hi], (Nat.eqb_spec d j) as [Hj|Hj]; try congruence.
  - injection Hc as <-. apply H1. exact (H d j a e Ha He Hj).
  - injection He as <-. apply H2. exact (H i d c a Hc Ha (not_eq_sym Hi)).
  - exact (H i j c e Hc He Hne).
Qed.

Lemma shorter N n : 0 < n < N -> slice_index (SSlice (Slice None (Some (- n)) None)) N = Some (arange 0 (N - n) 1).
Proof.
  intros H. cbn [slice_index np_index]. unfold eff_step, eff_start, eff_stop. cbn [s_start s_stop s_step]. change (1 =? 0) with false. change (0 <? 1) with true. cbv iota.
  replace (limit 0 N (from_end N (- n))) with (N - n); [reflexivity|]. unfold from_end, limit. destruct (Z.ltb_spec (- n) 0); lia.
Qed.
Lemma take_len a l : good_axis a -> in_range (axis_len a) l -> axis_len (axis_take env a l) = zlen l.
Proof. intros G H. exact (sliced_len a l _ G (sliced_self env Henv a l G H)). Qed.

Lemma diff_spec (x : var axis V) D d a n : responds env x D -> nth_error (var_axes x) d = Some a -> good_axis a -> 0 < n < axis_len a ->
  exists y b, diff_var env junk minus x d n = Some y /\
    var_axes y = set_at (var_axes x) d b /\ sliced a (arange 0 (axis_len a - n) 1) b /\
    responds env y (fun q => difference minus (Z.to_nat n) (fun i => D (set_at q d i)) (nth d q 0)).
Proof.
  intros Hx Ha Ga Hn. set (N := axis_len a) in *. unfold diff_var. rewrite Ha. cbn [bind]. fold N.
  destruct (Z.leb_spec N n); [lia|]. rewrite shorter by exact Hn. cbn [bind].
  assert (in_range N (arange 0 (N - n) 1)) as Hr by (apply in_range_arange; lia).
  set (b := axis_take env a (arange 0 (N - n) 1)).
  assert (axis_len b = N - n) as Hb by (unfold b; rewrite (take_len a _ Ga Hr), zlen_arange1; lia).
  exists (Var (set_at (var_axes x) d b) (GetView (diff_view env junk minus x d a n))), b.
  split; [reflexivity|]. split; [reflexivity|]. split; [exact (sliced_self env Henv a _ Ga Hr)|].
  assert (d < length (var_axes x))%nat as Hd by (apply nth_error_Some; congruence).
  split.
  { cbn [var_axes]. apply (separate_set _ d a b (proj1 Hx) Ha); unfold b.
    - intros c. apply take_unrelated_l; auto.
    - intros c. apply take_unrelated; auto. }
  cbn [var_source var_axes]. intros L HL.
  assert (Forall2 selection (var_axes x) L) as HLx.
  { pose proof (Forall2_len _ _ _ HL) as Hl. rewrite length_set_at in Hl. apply Forall2_intro_nth; [exact Hl|]. intros i c l Hc Hi.
    destruct (Nat.eq_dec d i) as [->|Hne].
    - assert (nth_error (set_at (var_axes x) i b) i = Some b) as E by (rewrite nth_error_set_at by exact Hd; now rewrite Nat.eqb_refl).
      destruct (Forall2_nth_error _ _ _ _ _ _ HL E Hi) as (H1 & H2 & H3). split; [exact H1|]. split; [|exact H3]. rewrite Ha in Hc. injection Hc as <-.
      eapply Forall_impl; [|exact H2]. fold N. intros k. cbv beta. lia.
    - assert (nth_error (set_at (var_axes x) d b) i = Some c) as E by (rewrite nth_error_set_at by exact Hd; destruct (Nat.eqb_spec d i); [contradiction|exact Hc]).
      exact (Forall2_nth_error _ _ _ _ _ _ HL E Hi). }
  assert (exists left, nth_error L d = Some left) as (left & Hleft).
  { destruct (nth_error L d) eqn:E; [eauto|]. apply nth_error_None in E. rewrite <- (Forall2_len _ _ _ HLx) in E. lia. }
  assert (selection b left) as (Hne & Hlr & Hinc).
  { apply (Forall2_nth_error _ _ _ d _ _ HL); [|exact Hleft]. rewrite nth_error_set_at by exact Hd. now rewrite Nat.eqb_refl. }
  rewrite Hb in Hlr. unfold diff_view. cbn [vinds view_of_inds]. rewrite (nth_error_nth _ _ [] Hleft).
  destruct (union_points left n ltac:(lia) Hne) as (u & -> & Hu & HuI). cbn [bind].
  assert (forall l j, In l left -> 0 <= j <= n -> In (l + j) u) as Hin by (intros l j H1 H2; apply HuI; eauto).
  assert (selection a u) as Hsel.
  { apply selection_of_sorted; [exact Hu| |].
    - destruct left as [|l t]; [congruence|]. intros ->. apply (Hin l 0); [now left|lia].
    - apply Forall_forall. intros k Hk. apply HuI in Hk as (l & j & H1 & H2 & ->). unfold in_range in Hlr. rewrite Forall_forall in Hlr. specialize (Hlr l H1). fold N. lia. }
  unfold replace_axis. cbn [vaxes vslices view_of_inds]. rewrite set_at_set, (set_at_nth _ _ _ Ha).
  rewrite (modify_slices env junk (var_axes x) L d (SList u) u a) by (auto using selection_range; try reflexivity; apply Hsel).
  cbn [bind]. destruct (read_points env Henv junk x D L d a u Hx HLx Ha Hsel) as (r & -> & Hsh & _ & Hshape). cbn [bind].
  pose proof (array_shows _ _ _ Hsh Hshape) as Hri.
  set (s := map zlen L) in *. assert (length s = length L) as HsL by apply map_length.
  assert (d < length s)%nat as Hds by (rewrite HsL, <- (Forall2_len _ _ _ HLx); exact Hd).
  assert (exists l0, In l0 left) as (l0 & H0) by (destruct left as [|l0 t0]; [congruence|exists l0; now left]).
  assert (forall l, In l left -> searchsorted u l + n < zlen u) as Hss.
  { intros l Hl. rewrite <- (searchsorted_run u l n Hu (fun j Hj => Hin l j Hl Hj) n ltac:(lia)). apply (elem_lt u _ (l + n)). apply searchsorted_elem; [exact Hu|]. apply Hin; [exact Hl|lia]. }
  assert (n <= zlen u) as Hnu.
  { pose proof (Hss l0 H0). pose proof (elem_lt _ _ _ (searchsorted_elem u (l0 + 0) Hu (Hin l0 0 H0 ltac:(lia)))). rewrite Z.add_0_r in *. lia. }
  destruct (np_diff_spec minus s d (Z.to_nat n) Hds (zlen u) r (fun p k => D (set_at (gather L p) d (znth u k)))) as (c & Hc & Hci); [| |exact Hri|].
  { intros p i j. cbv beta. now rewrite gather_set_p, set_at_set. } { lia. }
  rewrite Hc. cbn [bind]. eexists. split; [reflexivity|]. rewrite Z2Nat.id in Hci by lia.
  assert (in_range (zlen u - n) (map (searchsorted u) left)) as Hidx.
  { apply Forall_forall. intros k Hk. apply in_map_iff in Hk as (l & <- & Hl). pose proof (Hss l Hl).
    pose proof (elem_lt _ _ _ (searchsorted_elem u (l + 0) Hu (Hin l 0 Hl ltac:(lia)))). rewrite Z.add_0_r in *. lia. }
  pose proof (take_array _ d (zlen u - n) c _ (map (searchsorted u) left) Hci ltac:(rewrite nth_error_set_at by exact Hds; now rewrite Nat.eqb_refl) Hidx) as Hfin.
  assert (nth_error s d = Some (zlen left)) as Hsd by (unfold s; rewrite nth_error_map, Hleft; reflexivity).
  rewrite set_at_set, zlen_map, (set_at_nth s d _ Hsd) in Hfin. eapply array_is_ext; [exact Hfin|]. cbv beta. intros p Hp.
  assert (length p = length L) as Hpl by (rewrite <- (Forall2_len _ _ _ Hp); exact HsL).
  assert (d < length p)%nat as Hdp by lia.
  pose proof (position_at _ _ _ _ Hp Hsd) as Hk. rewrite nth_set_same by exact Hdp. rewrite znth_map by exact Hk.
  rewrite (nth_gather' L p d left Hpl Hleft). set (l := znth left (nth d p 0)).
  assert (In l left) as Hl by (eapply elem_In, elem_znth, Hk).
  apply difference_ext. intros j Hj. rewrite Z2Nat.id in Hj by lia. rewrite gather_set_p, set_at_set. f_equal. f_equal.
  rewrite <- (searchsorted_run u l n Hu (fun j Hj => Hin l j Hl Hj) j Hj). apply znth_elem. apply searchsorted_elem; auto.
Qed.
End Var.
