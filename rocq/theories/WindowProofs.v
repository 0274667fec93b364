(** Proofs about reading windows: common parts. *)
From Coq Require Import ZArith List Bool Lia QArith_base.
From Verif Require Import CalModel TimeSearchModel SortSpec IndexModel IndexSpec IndexProofs ArrModel ArrProofs ViewModel ViewSpec ViewProofs ChunkProofs
     AxisModel AxisSpec AxisProofs VarOpsModel VarOpsSpec VarOpsProofs ReduceModel ReduceSpec LoopProofs RespondProofs ArgProofs UfuncView NumModel
     StencilModel StencilSpec StencilProofs DiffProofs IntgrProofs ConcatModel ConcatProofs ConcatVar WindowModel.
Import ListNotations.
Open Scope Z_scope.

(** *** insert_at, remove_at *)
Lemma remove_insert {A} (l : list A) i x : (i <= length l)%nat -> remove_at (insert_at l i x) i = l.
Proof. revert i; induction l as [|y l IH]; intros [|i] H; cbn in *; try reflexivity; try lia. rewrite IH by lia. reflexivity. Qed.
Lemma insert_remove {A} (l : list A) i x : nth_error l i = Some x -> insert_at (remove_at l i) i x = l.
Proof. revert i; induction l as [|y l IH]; intros [|i] H; cbn in *; try discriminate; [now injection H as ->|]. now rewrite IH. Qed.
Lemma length_insert {A} (l : list A) i x : length (insert_at l i x) = S (length l).
Proof. revert l; induction i as [|i IH]; intros [|y l]; cbn; try reflexivity. now rewrite IH. Qed.
Lemma nth_error_insert_at {A} (l : list A) i x : forall j, (i <= length l)%nat ->
  nth_error (insert_at l i x) j = if Nat.ltb j i then nth_error l j else if Nat.eqb j i then Some x else nth_error l (j - 1).
Proof.
  revert l; induction i as [|i IH]; intros l [|j] H.
  - destruct l; reflexivity.
  - destruct l as [|y l]; cbn [insert_at nth_error]; change (Nat.ltb (S j) 0) with false; cbn [Nat.eqb]; now replace (S j - 1)%nat with j by lia.
  - destruct l as [|y l]; cbn in *; [lia|reflexivity].
  - destruct l as [|y l]; cbn in H; [lia|]. cbn [insert_at nth_error]. rewrite IH by lia. change (Nat.ltb (S j) (S i)) with (Nat.ltb j i). cbn [Nat.eqb].
    destruct (Nat.ltb_spec j i); [reflexivity|]. destruct (Nat.eqb_spec j i); [reflexivity|]. destruct j; [lia|]. cbn. now rewrite Nat.sub_0_r.
Qed.
Lemma nth_error_remove {A} (l : list A) i : forall j, nth_error (remove_at l i) j = nth_error l (if Nat.ltb j i then j else S j).
Proof.
  revert i; induction l as [|y l IH]; intros i j.
  - assert (forall n, nth_error (@nil A) n = None) as K by (intros []; reflexivity). cbn [remove_at]. now rewrite !K.
  - destruct i as [|i]; [reflexivity|]. destruct j as [|j]; [reflexivity|]. cbn [remove_at nth_error]. rewrite IH. change (Nat.ltb (S j) (S i)) with (Nat.ltb j i). destruct (Nat.ltb j i); reflexivity.
Qed.
Lemma map_insert {A B} (f : A -> B) l i x : map f (insert_at l i x) = insert_at (map f l) i (f x).
Proof. revert l; induction i as [|i IH]; intros [|y l]; cbn; try reflexivity. now rewrite IH. Qed.
Lemma Forall2_remove {A B} (R : A -> B -> Prop) l l' i : Forall2 R l l' -> Forall2 R (remove_at l i) (remove_at l' i).
Proof. intros H. revert i; induction H as [|x y l l' Hxy H IH]; intros [|i]; cbn; auto; constructor; auto. Qed.
Lemma Forall2_insert {A B} (R : A -> B -> Prop) l l' i x y : Forall2 R l l' -> R x y -> Forall2 R (insert_at l i x) (insert_at l' i y).
Proof. intros H Hxy. revert i; induction H as [|a b l l' Hab H IH]; intros [|i]; cbn; auto; constructor; auto. Qed.
Lemma gather_remove L p i : length p = length L -> gather (remove_at L i) (remove_at p i) = remove_at (gather L p) i.
Proof. revert p i; induction L as [|l L IH]; intros [|x p] [|i] H; cbn in *; try reflexivity; try lia. rewrite IH by lia. reflexivity. Qed.
Lemma gather_insert L p i l x : length p = length L -> gather (insert_at L i l) (insert_at p i x) = insert_at (gather L p) i (znth l x).
Proof. revert L p; induction i as [|i IH]; intros [|m L] [|y p] H; cbn in *; try reflexivity; try lia. rewrite IH by lia. reflexivity. Qed.
Lemma position_remove s p i : position s p -> position (remove_at s i) (remove_at p i).
Proof. apply Forall2_remove. Qed.
Lemma firstn_skipn_remove {A} (l : list A) d : firstn d l ++ skipn (S d) l = remove_at l d.
Proof. revert d; induction l as [|x l IH]; intros [|d]; cbn; try reflexivity. f_equal. exact (IH d). Qed.
Lemma remove_split {A} (q1 q2 : list A) x y d : length q1 = d -> remove_at (q1 ++ x :: y :: q2) (S d) = q1 ++ x :: q2.
Proof. revert d; induction q1 as [|z q1 IH]; intros [|d] H; cbn in *; try lia; [reflexivity|]. now rewrite IH by lia. Qed.
Lemma set_split {A} (q1 q2 : list A) x z d : length q1 = d -> set_at (q1 ++ x :: q2) d z = q1 ++ z :: q2.
Proof. revert d; induction q1 as [|y q1 IH]; intros [|d] H; cbn in *; try lia; [reflexivity|]. now rewrite IH by lia. Qed.
Lemma insert_split {A} (q1 q2 : list A) x y d : length q1 = d -> insert_at (q1 ++ x :: q2) (S d) y = q1 ++ x :: y :: q2.
Proof. revert d; induction q1 as [|z q1 IH]; intros [|d] H; cbn in *; try lia; [reflexivity|]. now rewrite IH by lia. Qed.
Lemma nth_split2 {A} (q1 q2 : list A) x y d dflt : length q1 = d -> nth d (q1 ++ x :: y :: q2) dflt = x /\ nth (S d) (q1 ++ x :: y :: q2) dflt = y.
Proof. intros <-. rewrite !app_nth2 by lia. replace (length q1 - length q1)%nat with 0%nat by lia. replace (S (length q1) - length q1)%nat with 1%nat by lia. auto. Qed.

(** *** views *)
Lemma remove_axis_inds B L d : remove_axis (view_of_inds B L) d = view_of_inds (remove_at B d) (remove_at L d).
Proof. unfold remove_axis, view_of_inds. cbn [vaxes vslices vinds]. rewrite !firstn_skipn_remove, remove_at_map. reflexivity. Qed.

Section Views.
Context {V : Type} (env : axenv) (Henv : env_ok env) (junk : list Z -> V).
Notation ops := (axis_ops env).
Notation get := (ViewModel.get ops junk).

Lemma modify_any axes L d sl l a : Forall2 (fun a l => in_range (axis_len a) l) axes L -> nth_error axes d = Some a ->
  expand sl (axis_len a) = Some l -> in_range (axis_len a) l ->
  modify_slice env (view_of_inds axes L) d sl = Some (view_of_inds axes (set_at L d l)).
Proof. intros H1 H2 H3 H4. unfold modify_slice. cbn [vaxes vslices view_of_inds]. apply (modify_slices env junk axes L d sl l a); assumption. Qed.

Lemma add_axis_inds axes L d a l sl : Forall2 (fun a l => in_range (axis_len a) l) axes L ->
  expand sl (axis_len a) = Some l -> in_range (axis_len a) l ->
  add_axis env (view_of_inds axes L) d a sl = Some (view_of_inds (insert_at axes d a) (insert_at L d l)).
Proof.
  intros H1 H2 H3. unfold add_axis. cbn [vaxes vslices view_of_inds].
  assert (Forall2 (fun a l => in_range (axis_len a) l) (insert_at axes d a) (insert_at L d l)) as H4 by now apply Forall2_insert.
  apply (slices_inds env (insert_at axes d a) (insert_at L d l) H4).
  pose proof (expand_all junk axes L H1) as H5. pose proof (Forall2_len _ _ _ H1) as Hl. clear -H2 H5 Hl.
  assert (forall (A B C : Type) (R : A -> B * C -> Prop) (i : nat) (l : list A) (m : list B) (n : list C) x y z, Forall2 R l (combine m n) -> length m = length n -> R x (y, z) ->
            Forall2 R (insert_at l i x) (combine (insert_at m i y) (insert_at n i z))) as K.
  { intros A B C R i; induction i as [|i IH]; intros [|a0 l0] [|b m] [|c n] x y z H Hl' HR; cbn in *; try discriminate; try (inversion H; fail); inversion H; subst; repeat constructor; auto. }
  apply K; auto.
Qed.

(** reading some of the elements, perhaps none *)
Lemma own_get (x : var axis V) D L : responds env x D -> Forall2 (fun a l => in_range (axis_len a) l /\ increasing l) (var_axes x) L ->
  exists r, get (view_of_inds (var_axes x) L) x true true = Some r /\ array_is r (map zlen L) (fun p => D (gather L p)).
Proof.
  intros Hx HL. destruct (existsb (Z.eqb 0) (map zlen L)) eqn:E0.
  - apply (get_own_empty ops junk x D L); [|eapply Forall2_impl; [|exact HL]; intros a l [H _]; exact H|exact E0].
    intros i j a b Ha Hb. split.
    + intros H. destruct (Nat.eq_dec i j) as [|Hne]; [assumption|]. rewrite unrelated_same in H; [discriminate|]. destruct Hx as [Hsep _]. eapply Hsep; eassumption.
    + intros ->. rewrite Ha in Hb. injection Hb as <-. apply same_refl.
  - apply (responds_part env Henv junk); [exact Hx|]. apply Forall2_intro_nth; [eapply Forall2_len, HL|]. intros i a l Ha Hl.
    pose proof (Forall2_nth_error _ _ _ _ _ _ HL Ha Hl) as [H1 H2]. split; [|split; assumption].
    intros ->. apply not_true_iff_false in E0. apply E0. apply existsb_exists. exists 0. split; [|reflexivity].
    apply in_map_iff. exists []. split; [reflexivity|]. eapply nth_error_In, Hl.
Qed.
End Views.

(** *** writing *)
Lemma places_In f l k : In k (places f l) <-> 0 <= k < zlen l /\ f (znth l k) = true.
Proof. unfold places. rewrite filter_In, In_arange1. reflexivity. Qed.
Lemma places_NoDup f l : NoDup (places f l).
Proof. apply NoDup_filter, NoDup_arange1. Qed.

Lemma last_pair_fst l i x y k : last_pair (map (fun j => (j, i)) l) x y k = if y =? i then last_index l x k else None.
Proof.
  revert k; induction l as [|a l IH]; intros k; cbn [map last_pair last_index]; [destruct (y =? i); reflexivity|]. rewrite IH.
  destruct (y =? i); [|now rewrite andb_false_r]. now rewrite andb_true_r.
Qed.
Lemma last_pair_snd l i x y k : last_pair (map (fun j => (i, j)) l) x y k = if x =? i then last_index l y k else None.
Proof.
  revert k; induction l as [|a l IH]; intros k; cbn [map last_pair last_index]; [destruct (x =? i); reflexivity|]. rewrite IH.
  destruct (x =? i); reflexivity.
Qed.

Lemma put_fst {V} (a b : arr V) d ks i s m n F : shape a = s -> nth_error s d = Some m -> nth_error s (S d) = Some n -> 0 <= i < n ->
  NoDup ks -> in_range m ks -> array_is b (set_at (remove_at s (S d)) d (zlen ks)) F ->
  exists c, put_pairs a d (map (fun k => (k, i)) ks) b = Some c /\ shape c = s /\
    forall p, position s p ->
      (nth (S d) p 0 <> i \/ ~ In (nth d p 0) ks -> val c p = val a p) /\
      (forall j, nth (S d) p 0 = i -> elem ks j (nth d p 0) -> val c p = F (set_at (remove_at p (S d)) d j)).
Proof.
  intros Hs Hm Hn Hi Hnd Hr [Hb1 Hb2]. unfold put_pairs. rewrite Hs, (nth_error_nthZ _ _ _ Hm), (nth_error_nthZ _ _ _ Hn).
  assert (forallb (fun '(i0, j) => (0 <=? i0) && (i0 <? m) && (0 <=? j) && (j <? n)) (map (fun k => (k, i)) ks) = true) as ->.
  { apply forallb_forall. intros [k j] Hk. apply in_map_iff in Hk as (k' & [= <- <-] & Hk'). pose proof (proj1 (Forall_forall _ _) Hr k' Hk') as Hrk; cbv beta in Hrk; lia. }
  assert (zlen (map (fun k => (k, i)) ks) = zlen ks) as -> by (unfold zlen; now rewrite map_length).
  destruct (broadcast_same b _ Hb1) as (b' & -> & Hb'1 & Hb'2). cbn [bind]. eexists. split; [reflexivity|]. split; [reflexivity|].
  intros p Hp. cbn [val]. rewrite last_pair_fst. split.
  - intros [H|H].
    + destruct (Z.eqb_spec (nth (S d) p 0) i); [contradiction|reflexivity].
    + rewrite last_index_None by exact H. destruct (_ =? _); reflexivity.
  - intros j -> Hj. rewrite Z.eqb_refl, (last_index_elem ks (nth d p 0) j 0 Hnd Hj), Z.add_0_l.
    assert (position (set_at (remove_at s (S d)) d (zlen ks)) (set_at (remove_at p (S d)) d j)) as Hq.
    { apply Forall2_set_both; [now apply position_remove|]. apply elem_range in Hj. exact Hj. }
    rewrite Hb'2 by exact Hq. now apply Hb2.
Qed.
Lemma put_snd {V} (a b : arr V) d ks i s m n F : shape a = s -> nth_error s d = Some m -> nth_error s (S d) = Some n -> 0 <= i < m ->
  NoDup ks -> in_range n ks -> array_is b (set_at (remove_at s (S d)) d (zlen ks)) F ->
  exists c, put_pairs a d (map (fun k => (i, k)) ks) b = Some c /\ shape c = s /\
    forall p, position s p ->
      (nth d p 0 <> i \/ ~ In (nth (S d) p 0) ks -> val c p = val a p) /\
      (forall j, nth d p 0 = i -> elem ks j (nth (S d) p 0) -> val c p = F (set_at (remove_at p (S d)) d j)).
Proof.
  intros Hs Hm Hn Hi Hnd Hr [Hb1 Hb2]. unfold put_pairs. rewrite Hs, (nth_error_nthZ _ _ _ Hm), (nth_error_nthZ _ _ _ Hn).
  assert (forallb (fun '(i0, j) => (0 <=? i0) && (i0 <? m) && (0 <=? j) && (j <? n)) (map (fun k => (i, k)) ks) = true) as ->.
  { apply forallb_forall. intros [k j] Hk. apply in_map_iff in Hk as (k' & [= <- <-] & Hk'). pose proof (proj1 (Forall_forall _ _) Hr k' Hk') as Hrk; cbv beta in Hrk; lia. }
  assert (zlen (map (fun k => (i, k)) ks) = zlen ks) as -> by (unfold zlen; now rewrite map_length).
  destruct (broadcast_same b _ Hb1) as (b' & -> & Hb'1 & Hb'2). cbn [bind]. eexists. split; [reflexivity|]. split; [reflexivity|].
  intros p Hp. cbn [val]. rewrite last_pair_snd. split.
  - intros [H|H].
    + destruct (Z.eqb_spec (nth d p 0) i); [contradiction|reflexivity].
    + rewrite last_index_None by exact H. destruct (_ =? _); reflexivity.
  - intros j -> Hj. rewrite Z.eqb_refl, (last_index_elem ks (nth (S d) p 0) j 0 Hnd Hj), Z.add_0_l.
    assert (position (set_at (remove_at s (S d)) d (zlen ks)) (set_at (remove_at p (S d)) d j)) as Hq.
    { apply Forall2_set_both; [now apply position_remove|]. apply elem_range in Hj. exact Hj. }
    rewrite Hb'2 by exact Hq. now apply Hb2.
Qed.

Lemma fold_columns {V T} (step : option (arr V) -> Z * T -> option (arr V)) (c : nat) (s : list Z) (G : T -> list Z -> V -> V) :
  forall items init, shape init = s -> NoDup (map fst items) ->
  (forall out it, In it items -> shape out = s -> exists out', step (Some out) it = Some out' /\ shape out' = s /\
     forall p, position s p -> val out' p = if nth c p 0 =? fst it then G (snd it) p (val out p) else val out p) ->
  exists out, fold_left step items (Some init) = Some out /\ shape out = s /\
    forall p, position s p -> (forall it, In it items -> nth c p 0 = fst it -> val out p = G (snd it) p (val init p)) /\
      (~ In (nth c p 0) (map fst items) -> val out p = val init p).
Proof.
  induction items as [|it items IH]; intros init Hs Hnd Hstep.
  - exists init. cbn. repeat split; auto. intros it [].
  - inversion Hnd as [|? ? Hni Hnd']; subst. destruct (Hstep init it (or_introl eq_refl) eq_refl) as (o1 & E1 & S1 & V1).
    destruct (IH o1 S1 Hnd') as (out & E & S & W). { intros out it' Hin Ho. apply Hstep; [now right|exact Ho]. }
    exists out. cbn [fold_left]. rewrite E1. split; [exact E|]. split; [exact S|]. intros p Hp. destruct (W p Hp) as [W1 W2]. split.
    + intros it' [<-|Hin] He.
      * rewrite W2 by (rewrite He; exact Hni). rewrite V1 by exact Hp. rewrite He, Z.eqb_refl. reflexivity.
      * rewrite (W1 it' Hin He), V1 by exact Hp. destruct (Z.eqb_spec (nth c p 0) (fst it)) as [E'|]; [|reflexivity].
        exfalso. apply Hni. rewrite <- E', He. now apply in_map.
    + intros Hn. cbn [map] in Hn. rewrite W2 by (intros H; apply Hn; now right). rewrite V1 by exact Hp.
      destruct (Z.eqb_spec (nth c p 0) (fst it)) as [E'|]; [exfalso; apply Hn; left; now symmetry|reflexivity].
Qed.
