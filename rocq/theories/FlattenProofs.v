(** Proofs about FlattenVar. *)
From Coq Require Import ZArith List Bool Lia QArith_base.
From Verif Require Import CalModel CalSpec TimeSearchModel SortSpec IndexModel IndexSpec IndexProofs ArrModel ArrProofs ViewModel ViewSpec ViewProofs ChunkProofs
     AxisModel AxisSpec AxisProofs VarOpsModel VarOpsSpec VarOpsProofs ReduceModel ReduceSpec LoopProofs RespondProofs ArgProofs UfuncView NumModel
     StencilModel StencilSpec StencilProofs DiffProofs IntgrProofs ConcatModel ConcatProofs ConcatVar WindowModel WindowProofs LagProofs CompositeProofs.
Import ListNotations.
Open Scope Z_scope.

(** *** merging two axes of an array *)
Lemma prod_merge a b : forall d s, (d < length s)%nat -> prod (insert_at (set_at s d a) (S d) b) = prod (set_at s d (a * b)).
Proof.
  induction d as [|d IH]; intros [|n s] H; cbn [length] in H; try lia.
  - cbn [set_at insert_at]. change (insert_at s 0 b) with (b :: s). unfold prod; cbn [fold_right]. lia.
  - cbn [set_at]. change (insert_at (n :: set_at s d a) (S (S d)) b) with (n :: insert_at (set_at s d a) (S d) b). unfold prod in *; cbn [fold_right]. rewrite IH by lia. reflexivity.
Qed.
Lemma ravel_merge a b x y : forall d s p, (d < length s)%nat -> length p = length s ->
  ravel (insert_at (set_at s d a) (S d) b) (insert_at (set_at p d x) (S d) y) = ravel (set_at s d (a * b)) (set_at p d (x * b + y)).
Proof.
  induction d as [|d IH]; intros [|n s] [|z p] H Hl; cbn [length] in H, Hl; try lia.
  - cbn [set_at]. change (insert_at (a :: s) 1 b) with (a :: insert_at s 0 b). change (insert_at s 0 b) with (b :: s).
    change (insert_at (x :: p) 1 y) with (x :: y :: p). cbn [ravel]. unfold prod; cbn [fold_right]. lia.
  - cbn [set_at]. change (insert_at (n :: set_at s d a) (S (S d)) b) with (n :: insert_at (set_at s d a) (S d) b).
    change (insert_at (z :: set_at p d x) (S (S d)) y) with (z :: insert_at (set_at p d x) (S d) y). cbn [ravel]. rewrite IH by lia. rewrite prod_merge by lia. reflexivity.
Qed.
Lemma reshape_merge {V} (r : arr V) s d a b F : (d < length s)%nat -> array_is r (insert_at (set_at s d a) (S d) b) F -> 0 <= a -> 0 <= b ->
  exists c, reshape r (set_at s d (a * b)) = Some c /\
    array_is c (set_at s d (a * b)) (fun p => F (insert_at (set_at p d (nth d p 0 / b)) (S d) (nth d p 0 mod b))).
Proof.
  intros Hd [Hs Hv] Ha Hb. unfold reshape. rewrite Hs, prod_merge, Z.eqb_refl by exact Hd. eexists. split; [reflexivity|]. split; [reflexivity|].
  intros p Hp. cbn [val]. set (k := nth d p 0).
  assert (0 <= k < a * b) as Hk. { eapply position_at; [exact Hp|]. rewrite nth_error_set_at, Nat.eqb_refl by exact Hd. reflexivity. }
  assert (0 < b) as Hb' by nia.
  assert (length p = length s) as Hl by (apply Forall2_len in Hp; rewrite length_set_at in Hp; lia).
  assert (position (insert_at (set_at s d a) (S d) b) (insert_at (set_at p d (k / b)) (S d) (k mod b))) as Hq.
  { apply Forall2_insert; [|apply Z.mod_pos_bound; exact Hb']. apply (Forall2_set_both _ _ _ d a (k / b)) in Hp.
    - rewrite set_at_set in Hp. exact Hp.
    - split; [apply Z.div_pos; lia|apply Z.div_lt_upper_bound; lia]. }
  rewrite <- (Hv _ Hq). f_equal. rewrite <- (unravel_ravel _ _ Hq) at 1. f_equal. rewrite ravel_merge by (exact Hd || exact Hl).
  f_equal. rewrite Z.mul_comm, <- Z.div_mod by lia. symmetry. apply set_at_nth. apply nth_error_nth'. lia.
Qed.

Lemma set_insert_before {A} (l : list A) d x y : (d < length l)%nat -> set_at (insert_at l (S d) x) d y = insert_at (set_at l d y) (S d) x.
Proof. revert d; induction l as [|z l IH]; intros [|d] H; cbn [length] in H; try lia; [reflexivity|]. cbn [set_at insert_at]. f_equal. apply IH. lia. Qed.

(** the element number [k] of two merged axes, the second one of length [n] *)
Definition unmerged {V} (D : list Z -> V) (d : nat) (n : Z) (q : list Z) (k : Z) : V := D (insert_at (set_at q d (k / n)) (S d) (k mod n)).

Lemma diff_run n : forall f, Forall (fun x => x = 1) (diff (arange f (f + Z.of_nat n) 1)).
Proof.
  induction n as [|n IH]; intros f.
  - rewrite arange_none by lia. constructor.
  - rewrite arange_cons by lia. destruct n as [|n]; [rewrite arange_none by lia; constructor|].
    specialize (IH (f + 1)). replace (f + 1 + Z.of_nat (S n)) with (f + Z.of_nat (S (S n))) in IH by lia.
    rewrite arange_cons in IH |- * by lia. cbn [diff]. cbn [diff] in IH. constructor; [lia|exact IH].
Qed.
Lemma simplify_run f t : f < t -> 0 <= f -> simplify (arange f t 1) = SSlice (Slice (Some f) (Some t) (Some 1)).
Proof.
  intros H H0. destruct (Z.eq_dec t (f + 1)) as [->|Hne].
  - rewrite arange_cons, arange_none by lia. reflexivity.
  - pose proof (diff_run (Z.to_nat (t - f)) f) as Hd. replace (f + Z.of_nat (Z.to_nat (t - f))) with t in Hd by lia.
    assert (last (arange f t 1) 0 = t - 1) as Hlast. { replace t with (t - 1 + 1) at 1 by lia. rewrite arange_snoc by lia. apply last_last. }
    rewrite arange_cons in Hd, Hlast |- * by lia. rewrite arange_cons in Hd, Hlast |- * by lia.
    unfold simplify. rewrite Hlast. cbn [diff] in *. inversion Hd as [|? ? H1 H2]; subst. rewrite H1.
    assert (forallb (Z.eqb 1) (diff (f + 1 :: arange (f + 1 + 1) t 1)) = true) as Hf.
    { apply forallb_forall. intros z Hz. pose proof (proj1 (Forall_forall _ _) H2 z Hz). apply Z.eqb_eq. now symmetry. }
    cbn [diff] in Hf. rewrite Hf. cbn [negb orb hd]. destruct (Z.ltb_spec (t - 1 + 1) 0); [lia|]. replace (t - 1 + 1) with t by lia. reflexivity.
Qed.

Section Flatten.
Context {V : Type} (env : axenv) (Henv : env_ok env) (junk : list Z -> V).
Notation var := (ViewModel.var axis V).

Section View.
Context (x : var) (D : list Z -> V) (d : nat) (ao ai new : axis) (L : list (list Z)) (f t : Z).
Notation m := (axis_len ao).
Notation n := (axis_len ai).
Notation axes := (set_at (remove_at (var_axes x) (S d)) d new).
Notation s := (map zlen L).
Context (Hx : responds env x D) (Ho : nth_error (var_axes x) d = Some ao) (Hi : nth_error (var_axes x) (S d) = Some ai).
Context (HL : Forall2 selection axes L) (Hrun : nth_error L d = Some (arange f t 1)) (Hlen : axis_len new = m * n).

Lemma fl_len : (S d < length (var_axes x))%nat.
Proof. apply nth_error_Some. congruence. Qed.
Lemma fl_L : (S (length L) = length (var_axes x))%nat.
Proof. apply Forall2_len in HL. rewrite length_set_at, length_remove_at in HL; pose proof fl_len; lia. Qed.
Lemma fl_bounds : 0 <= f < t /\ t <= m * n.
Proof.
  assert (selection new (arange f t 1)) as (H1 & H2 & _).
  { refine (Forall2_nth_error _ _ _ _ _ _ HL _ Hrun). rewrite nth_error_set_at, Nat.eqb_refl; [reflexivity|]. rewrite length_remove_at; pose proof fl_len; lia. }
  assert (f < t) as H by (destruct (Z.lt_ge_cases f t); [assumption|]; rewrite arange_none in H1 by lia; congruence).
  rewrite Hlen in H2. pose proof (proj1 (Forall_forall _ _) H2 f (proj2 (In_arange1 f t f) ltac:(lia))). pose proof (proj1 (Forall_forall _ _) H2 (t - 1) (proj2 (In_arange1 f t (t - 1)) ltac:(lia))). cbv beta in *. lia.
Qed.
Lemma fl_axes : insert_at (set_at axes d ao) (S d) ai = var_axes x.
Proof.
  rewrite set_at_set. rewrite set_at_nth; [now apply insert_remove|]. rewrite nth_error_remove. destruct (Nat.ltb_spec d (S d)); [exact Ho|lia].
Qed.
Definition cut (lo li : list Z) : list (list Z) := insert_at (set_at L d lo) (S d) li.
Lemma fl_ok (R : axis -> list Z -> Prop) lo li : (forall a l, selection a l -> R a l) -> R ao lo -> R ai li -> Forall2 R (var_axes x) (cut lo li).
Proof.
  intros HR H1 H2. rewrite <- fl_axes. apply Forall2_insert; [|exact H2]. apply Forall2_set_both; [|exact H1]. eapply Forall2_impl; [|exact HL]. exact HR.
Qed.
Notation inviewt := (view_of_inds (var_axes x) (cut (arange 0 m 1) (arange 0 n 1))).

Lemma fl_inview : bind (replace_axis env (view_of_inds axes L) d ao whole) (fun v => add_axis env v (S d) ai whole) = Some inviewt.
Proof.
  assert (replace_axis env (view_of_inds axes L) d ao whole = Some (view_of_inds (set_at axes d ao) (set_at L d (arange 0 m 1)))) as ->.
  { unfold replace_axis. cbn [vaxes vslices view_of_inds].
    assert (Forall2 (fun a l => in_range (axis_len a) l) (set_at axes d ao) (set_at L d (arange 0 m 1))) as H.
    { apply Forall2_set_both; [|apply in_range_arange; lia]. eapply Forall2_impl; [|exact HL]. intros a l (_ & K & _). exact K. }
    assert (Forall2 (fun a l => in_range (axis_len a) l) (set_at axes d ao) (set_at L d (arange 0 m 1))) as Hcopy by exact H.
    apply (slices_inds env (set_at axes d ao) (set_at L d (arange 0 m 1)) H).
    pose proof (expand_all junk _ _ H) as HE. rewrite map_set_at in HE.
    assert (forall (A B : Type) (P : A -> B -> Prop) i l r y z, Forall2 P (set_at l i y) r -> (forall b, nth_error r i = Some b -> P z b) -> Forall2 P (set_at l i z) r) as K.
    { clear. intros A B P i l r y z H HP. rewrite <- (set_at_set l i y z). remember (set_at l i y) as l' eqn:El. clear El.
      revert i HP; induction H as [|u v l' r Huv H IH]; intros [|i] HP; cbn; constructor; auto. }
    eapply K; [exact HE|]. intros [b l] Hb. rewrite nth_error_combine in Hb.
    assert (d < length L)%nat as HdL by (apply nth_error_Some; congruence). assert (d < length axes)%nat as Hda by (rewrite (Forall2_len _ _ _ HL); exact HdL).
    rewrite !nth_error_set_at, Nat.eqb_refl in Hb by assumption. rewrite nth_error_set_at, Nat.eqb_refl in Hb by assumption. injection Hb as <- <-. reflexivity. }
  cbn [bind]. rewrite (add_axis_inds env junk _ _ (S d) ai (arange 0 n 1) whole); [| |reflexivity|apply in_range_arange; lia].
  - rewrite fl_axes. reflexivity.
  - apply Forall2_set_both; [|apply in_range_arange; lia]. eapply Forall2_impl; [|exact HL]. intros a l (_ & K & _). exact K.
Qed.

Notation part o1 o2 i1 i2 shp :=
  (bind (modify_slice env inviewt d (from_to o1 o2)) (fun w => bind (modify_slice env w (S d) (from_to i1 i2)) (fun w =>
   bind (ViewModel.get (axis_ops env) junk w x true true) (fun b => reshape b (set_at (vshape (view_of_inds axes L)) d shp))))).
Definition flat (p : list Z) (k : Z) : V := unmerged D d n (gather L p) k.
Lemma flat_steady c : steady_in d (fun p k => flat p (c + k)).
Proof. intros p i j. unfold flat, unmerged. now rewrite gather_set_p, set_at_set. Qed.

Lemma part_spec o1 o2 i1 i2 shp : 0 <= o1 <= o2 -> o2 <= m -> 0 <= i1 < i2 -> i2 <= n -> (o2 = o1 + 1 \/ i1 = 0 /\ i2 = n) -> shp = (o2 - o1) * (i2 - i1) ->
  exists c, part o1 o2 i1 i2 shp = Some c /\ has s d c shp (fun p k => flat p (o1 * n + i1 + k)).
Proof.
  intros H1 H2 H3 H4 H5 ->. pose proof fl_len as Hl1. pose proof fl_L as Hl2.
  assert (d < length L)%nat as HdL by lia.
  assert (forall lo li, in_range m lo -> in_range n li -> Forall2 (fun a l => in_range (axis_len a) l) (var_axes x) (cut lo li)) as Hok.
  { intros lo li K1 K2. apply fl_ok; auto. intros a l (_ & K & _). exact K. }
  rewrite (modify_any env junk (var_axes x) (cut (arange 0 m 1) (arange 0 n 1)) d (from_to o1 o2) (arange o1 o2 1) ao); [|apply Hok; apply in_range_arange; lia|exact Ho| |apply in_range_arange; lia].
  2:{ unfold from_to. cbn [expand]. destruct (Z.ltb_spec o1 0), (Z.ltb_spec o2 0); try lia. reflexivity. }
  cbn [bind]. unfold cut at 1. rewrite set_insert_before, set_at_set by (rewrite length_set_at; exact HdL). fold (cut (arange o1 o2 1) (arange 0 n 1)).
  rewrite (modify_any env junk (var_axes x) (cut (arange o1 o2 1) (arange 0 n 1)) (S d) (from_to i1 i2) (arange i1 i2 1) ai); [|apply Hok; apply in_range_arange; lia|exact Hi| |apply in_range_arange; lia].
  2:{ unfold from_to. cbn [expand]. destruct (Z.ltb_spec i1 0), (Z.ltb_spec i2 0); try lia. reflexivity. }
  cbn [bind]. unfold cut at 1. rewrite set_at_insert by (rewrite length_set_at; lia). fold (cut (arange o1 o2 1) (arange i1 i2 1)).
  destruct (own_get env Henv junk x D (cut (arange o1 o2 1) (arange i1 i2 1)) Hx) as (b & -> & Hb).
  { assert (forall u w, increasing (arange u w 1)) as Hinc by (intros u w k1 k2 u1 u2 Hu1 Hu2; apply elem_arange1 in Hu1, Hu2; lia).
    apply fl_ok; [intros a l (_ & K1 & K2); split; assumption| |]; (split; [apply in_range_arange; lia|apply Hinc]). }
  cbn [bind]. change (vshape (view_of_inds axes L)) with s.
  destruct (reshape_merge b s d (o2 - o1) (i2 - i1) (fun p => D (gather (cut (arange o1 o2 1) (arange i1 i2 1)) p))) as (c & Ec & Hc); try lia.
  { rewrite map_length. exact HdL. }
  { unfold cut in Hb at 1. rewrite map_insert, map_set_at, !zlen_arange1 in Hb by lia. exact Hb. }
  exists c. split; [exact Ec|]. eapply array_is_ext; [exact Hc|]. intros p Hp. cbv beta. set (w := i2 - i1) in *. set (k := nth d p 0) in *.
  assert (length p = length L) as Hlp by (apply Forall2_len in Hp; rewrite <- Hp, length_set_at; apply map_length).
  assert (0 <= k < (o2 - o1) * w) as Hk. { eapply position_at; [exact Hp|]. rewrite nth_error_set_at, Nat.eqb_refl by (rewrite map_length; exact HdL). reflexivity. }
  unfold cut. rewrite gather_insert by (rewrite !length_set_at; exact Hlp). rewrite gather_set, gather_set_p, set_at_set, nth_set_same by (rewrite Hlp; exact HdL).
  unfold flat, unmerged. assert (0 < w) as Hw by (unfold w; lia).
  pose proof (Z.mod_pos_bound k w Hw) as Hmod. assert (0 <= k / w < o2 - o1) as Hdiv by (split; [apply Z.div_pos; lia|apply Z.div_lt_upper_bound; lia]).
  rewrite !znth_arange1 by (unfold w in *; lia).
  assert (o1 * n + i1 + k = n * (o1 + k / w) + (i1 + k mod w)) as Ek.
  { pose proof (Z.div_mod k w ltac:(lia)) as Hk'. revert Hk' Hdiv. generalize (k / w) (k mod w). intros qq rr Hk' Hdiv. destruct H5 as [E5|[E5 E6]].
    - assert (qq = 0) by lia. subst qq. lia.
    - assert (w = n) by (unfold w; lia). rewrite E5. replace w with n in Hk' by assumption. lia. }
  assert (0 <= i1 + k mod w < n) as Hlow by (clear -Hmod H3 H4; unfold w in *; lia).
  assert ((o1 * n + i1 + k) / n = o1 + k / w) as -> by (symmetry; apply (Z.div_unique_pos _ _ _ (i1 + k mod w)); [exact Hlow|exact Ek]).
  assert ((o1 * n + i1 + k) mod n = i1 + k mod w) as -> by (symmetry; apply (Z.mod_unique_pos _ _ (o1 + k / w)); [exact Hlow|exact Ek]).
  reflexivity.
Qed.

Lemma flatten_view_spec : exists r, flatten_view env junk x d ao ai n (view_of_inds axes L) = Some r /\
  array_is r s (fun p => unmerged D d n (gather L p) (nth d (gather L p) 0)).
Proof.
  pose proof fl_bounds as [Hft Htm]. pose proof fl_len as Hl1. pose proof fl_L as Hl2. assert (d < length L)%nat as HdL by lia.
  assert (0 <= n) as Hn by apply axis_len_nonneg. assert (0 <= m) as Hm by apply axis_len_nonneg. assert (0 < n) as Hn' by nia.
  assert (d < length s)%nat as Hds by (rewrite map_length; exact HdL).
  assert (forall r, has s d r (t - f) (fun p k => flat p (f + k)) -> array_is r s (fun p => unmerged D d n (gather L p) (nth d (gather L p) 0))) as Hend.
  { intros r Hr. unfold has in Hr. rewrite set_at_nth in Hr. 2:{ rewrite nth_error_map, Hrun. cbn [option_map]. now rewrite zlen_arange1 by lia. }
    eapply array_is_ext; [exact Hr|]. intros p Hp. cbv beta. unfold flat. f_equal.
    assert (length p = length L) as Hlp by (apply Forall2_len in Hp; rewrite <- Hp; apply map_length).
    rewrite (nth_gather' L p d _ Hlp Hrun). rewrite znth_arange1; [reflexivity|]. eapply position_at; [exact Hp|]. rewrite nth_error_map, Hrun. cbn [option_map]. now rewrite zlen_arange1 by lia. }
  unfold flatten_view. cbn [vslices view_of_inds]. rewrite (nth_indep _ (SInt 0) (simplify [])) by (rewrite map_length; exact HdL).
  rewrite map_nth, (nth_error_nth _ _ [] Hrun), simplify_run by lia. fold (view_of_inds axes L).
  destruct (Z.eqb_spec n 0) as [En0|En0]; [lia|].
  pose proof fl_inview as Hv. destruct (replace_axis env (view_of_inds axes L) d ao whole) as [v1|]; [|discriminate]. cbn [bind] in Hv |- *. rewrite Hv. cbn [bind]. clear Hv v1.
  set (os := f / n). set (oe := - (- t / n)).
  pose proof (Z.div_mod f n ltac:(lia)) as Ef. pose proof (Z.mod_pos_bound f n Hn') as Bf. fold os in Ef.
  pose proof (Z.div_mod (- t) n ltac:(lia)) as Et. pose proof (Z.mod_pos_bound (- t) n Hn') as Bt. replace (- t / n) with (- oe) in Et by (unfold oe; lia).
  assert (0 <= os) as Hos by (apply Z.div_pos; lia).
  assert (os < oe) as Hoe by nia. assert (oe <= m) as Hoem by nia.
  destruct (Z.eqb_spec (oe - os) 1) as [E1|E1].
  - destruct (part_spec os oe (f - os * n) (t - os * n) (t - f)) as (c & Ec & Hc); try nia.
    replace (nth d (vshape (view_of_inds axes L)) 0) with (t - f).
    2:{ change (vshape (view_of_inds axes L)) with s. symmetry. apply nth_error_nth. rewrite nth_error_map, Hrun. cbn [option_map]. now rewrite zlen_arange1 by lia. }
    exists c. split; [exact Ec|]. apply Hend. eapply has_ext; [exact Hds|exact Hc|]. intros p k Hk. cbv beta. f_equal. lia.
  - destruct (part_spec os (os + 1) (f - os * n) n (n - (f - os * n))) as (b1 & E2 & H1); try nia.
    destruct (part_spec (os + 1) (oe - 1) 0 n ((oe - 1 - (os + 1)) * n)) as (b2 & E3 & H2); try nia.
    destruct (part_spec (oe - 1) oe 0 (t - (oe - 1) * n) (t - (oe - 1) * n)) as (b3 & E4 & H3); try nia.
    rewrite E2. cbn [bind]. rewrite E3. cbn [bind]. rewrite E4. cbn [bind].
    destruct (concatenate_has s d Hds b2 b3 ((oe - 1 - (os + 1)) * n) (t - (oe - 1) * n) _ _ ltac:(nia) (flat_steady _) H2 H3) as (c1 & -> & Hc1). cbn [bind].
    assert (has s d c1 ((oe - 1 - (os + 1)) * n + (t - (oe - 1) * n)) (fun p k => flat p ((os + 1) * n + k))) as Hc1'.
    { eapply has_ext; [exact Hds|exact Hc1|]. intros p k Hk. cbv beta. destruct (Z.ltb_spec k ((oe - 1 - (os + 1)) * n)); f_equal; lia. }
    destruct (concatenate_has s d Hds b1 c1 (n - (f - os * n)) _ _ _ ltac:(nia) (flat_steady _) H1 Hc1') as (c & -> & Hc).
    exists c. split; [reflexivity|]. apply Hend.
    replace (t - f) with (n - (f - os * n) + ((oe - 1 - (os + 1)) * n + (t - (oe - 1) * n))) by lia.
    eapply has_ext; [exact Hds|exact Hc|]. intros p k Hk. cbv beta. destruct (Z.ltb_spec k (n - (f - os * n))); f_equal; lia.
Qed.
End View.
End Flatten.

(** a request is answered if the one for its sorted indices is *)
Section Sorted.
Context {V : Type} (env : axenv) (Henv : env_ok env) (junk : list Z -> V).
Notation ops := (axis_ops env).
Lemma separate_in_place axes : separate axes -> in_place axes axes.
Proof.
  intros Hs. split; [reflexivity|]. intros j k a b Ha Hb. destruct (Nat.eqb_spec j k) as [->|Hne].
  - assert (a = b) as -> by congruence. apply same_refl.
  - apply unrelated_same. eapply Hs; eassumption.
Qed.
Lemma unique_all axes L : Forall2 choice axes L -> forallb (fun '(u, ind) => np_all_eq u ind) (combine (map np_unique L) L) = true -> map np_unique L = L.
Proof.
  intros H. induction H as [|a l axes L [H1 H2] H IH]; intros E; [reflexivity|]. cbn [map combine forallb] in E. apply andb_prop in E as [E1 E2].
  cbn [map]. rewrite IH by exact E2. f_equal. assert (l <> []) as Hne by (apply (choice_ne a); split; assumption).
  destruct (np_all_eq_request (axis_len a) l Hne H1 E1) as (_ & _ & [Hi|Hc]); [now apply unique_increasing|].
  destruct H2 as [H2|(i & j & Hi & Hj & Hij)]; [|exfalso; apply Hij; auto].
  destruct l as [|y [|z l]]; [congruence|reflexivity|unfold zlen in H2; cbn [length] in H2; lia].
Qed.
Lemma get_sorted axes g (E : list Z -> V) L : separate axes -> Forall2 choice axes L ->
  (exists r, g (view_of_inds axes (map np_unique L)) = Some r /\ array_is r (map zlen (map np_unique L)) (fun p => E (gather (map np_unique L) p))) ->
  exists r, ViewModel.get ops junk (view_of_inds axes L) (Var axes (GetView g)) true true = Some r /\ array_is r (map zlen L) (fun p => E (gather L p)).
Proof.
  intros Hsep HL Hg. pose proof (Forall2_len _ _ _ HL) as HLen. set (y := Var axes (GetView g)).
  assert (exists r, fetch junk y (view_of_inds (var_axes y) L) = Some r /\ array_is r (map zlen L) (fun p => E (gather L p))) as Hfetch.
  { apply fetch_gen; [|exact Hg]. intros Eq. change (read junk y (view_of_inds (var_axes y) L)) with (g (view_of_inds axes L)).
    rewrite (unique_all axes L HL Eq) in Hg. exact Hg. }
  set (n := length L).
  assert (map fst (combine (seq 0 n) L) = seq 0 n) as E1 by (apply map_fst_combine; apply seq_length).
  assert (map snd (combine (seq 0 n) L) = L) as E2.
  { assert (forall (l : list nat) (l' : list (list Z)), length l = length l' -> map snd (combine l l') = l') as HH
      by (induction l; intros [|? ?] E0; simpl in *; try lia; [reflexivity|f_equal; auto]). apply HH. apply seq_length. }
  destruct (get_fetch ops junk axes L y E (combine (seq 0 n) L)) as (r & Er & Hr).
  + now symmetry.
  + rewrite E2. exact Hfetch.
  + apply Forall2_intro_nth; [rewrite combine_length, seq_length; cbn [var_axes]; unfold n; cbn; lia|]. intros j a [i l] Ha Hi. rewrite nth_error_combine, nth_error_seq in Hi.
    destruct (Nat.ltb_spec j n) as [Lj|]; [|discriminate]. destruct (nth_error L j) as [l'|] eqn:El; [|discriminate]. injection Hi as <- <-. cbn [Nat.add].
    destruct (separate_in_place axes Hsep) as [_ Hp]. apply (mapped_same ops junk axes L a j a l'); auto.
    * cbn. apply same_refl.
    * intros k b' Hk Hb'. cbn. rewrite (Hp j k a b' Ha Hb'). apply Nat.eqb_neq. lia.
    * apply (Forall2_nth_error _ _ _ _ _ _ HL Ha El).
  + rewrite E1. apply seq_NoDup.
  + rewrite E2. apply Forall_forall. intros l Hl. destruct (Forall2_In_r _ _ _ _ HL Hl) as (a & _ & H). now apply (choice_ne a).
  + exists r. split; [exact Er|]. rewrite E1, E2 in Hr. rewrite (outshape_full (map zlen L) (seq 0 n)) in Hr.
    * destruct Hr as [Hs Hv]. split; [exact Hs|]. intros p Hp'. rewrite (Hv p Hp'). f_equal. unfold n. apply gather_nth_seq. apply Forall2_len in Hp'. now rewrite map_length in Hp'.
    * intros i Hi. rewrite map_length in Hi. apply in_seq. unfold n. lia.
Qed.
End Sorted.

Lemma sorted_ext l m : sorted l -> sorted m -> (forall x, In x l <-> In x m) -> l = m.
Proof.
  intros Hl. revert m. induction Hl as [|x l Hx Hl IH]; intros m Hm E.
  - destruct m as [|y m]; [reflexivity|]. exfalso. apply (E y). now left.
  - destruct Hm as [|y m Hy Hm]; [exfalso; apply (E x); now left|].
    assert (x = y) as ->.
    { destruct (proj1 (E x) (or_introl eq_refl)) as [H|H]; [now symmetry|]. destruct (proj2 (E y) (or_introl eq_refl)) as [H'|H']; [exact H'|].
      specialize (Hx y H'). specialize (Hy x H). lia. }
    f_equal. apply IH; [exact Hm|]. intros z. split; intros Hz.
    + destruct (proj1 (E z) (or_intror Hz)) as [H|H]; [|exact H]. subst. specialize (Hx z Hz). lia.
    + destruct (proj2 (E z) (or_intror Hz)) as [H|H]; [|exact H]. subst. specialize (Hy z Hz). lia.
Qed.
Lemma unique_run l f t : (forall k, In k l <-> f <= k < t) -> np_unique l = arange f t 1.
Proof.
  intros H. apply sorted_ext; [apply unique_sorted| |].
  - apply increasing_sorted. intros i j x y Hi Hj Hij. apply elem_arange1 in Hi, Hj. lia.
  - intros x. now rewrite unique_In, H, In_arange1.
Qed.

Section FlattenVar.
Context {V : Type} (env : axenv) (Henv : env_ok env) (junk : list Z -> V) (class_name : list Z -> Z).
Notation var := (ViewModel.var axis V).

Theorem flatten_any (x : var) D d ao ai naxis new y : responds env x D -> nth_error (var_axes x) d = Some ao -> nth_error (var_axes x) (S d) = Some ai ->
  flatten_var env junk class_name x d naxis = Some y -> var_axes y = set_at (remove_at (var_axes x) (S d)) d new ->
  axis_len new = axis_len ao * axis_len ai -> separate (var_axes y) ->
  forall L f t, Forall2 choice (var_axes y) L -> (forall k, In k (nth d L []) <-> f <= k < t) ->
  exists r, ViewModel.get (axis_ops env) junk (view_of_inds (var_axes y) L) y true true = Some r /\
    array_is r (map zlen L) (fun p => unmerged D d (axis_len ai) (gather L p) (nth d (gather L p) 0)).
Proof.
  intros Hx Ho Hi Hf Hy Hlen Hsep L f t HL Hrun. unfold flatten_var in Hf. rewrite Ho, Hi in Hf. cbn [bind] in Hf.
  match type of Hf with bind ?o _ = _ => destruct o as [n|] end; [|discriminate]. cbn [bind] in Hf. injection Hf as <-. cbn [var_axes] in *.
  set (axes := set_at (remove_at (var_axes x) (S d)) d n) in *.
  apply (get_sorted env junk axes _ (fun q => unmerged D d (axis_len ai) q (nth d q 0)) L Hsep HL).
  assert (S d < length (var_axes x))%nat as Hd by (apply nth_error_Some; congruence).
  assert (length L = length (remove_at (var_axes x) (S d))) as HlL by (apply Forall2_len in HL; unfold axes in HL; rewrite length_set_at in HL; lia).
  assert (d < length L)%nat as HdL by (rewrite HlL, length_remove_at; lia).
  assert (d < length (remove_at (var_axes x) (S d)))%nat as Hdr by lia.
  assert (n = new) as ->.
  { assert (nth_error axes d = Some n) as K1 by (unfold axes; rewrite nth_error_set_at, Nat.eqb_refl by exact Hdr; reflexivity).
    rewrite Hy in K1. rewrite nth_error_set_at, Nat.eqb_refl in K1 by exact Hdr. congruence. }
  apply (flatten_view_spec env Henv junk x D d ao ai new (map np_unique L) f t); auto.
  - apply Forall2_map_r. eapply Forall2_impl; [|exact HL]. intros a l Hc. destruct (Hc) as [H1 H2]. split; [apply unique_ne, (choice_ne a), Hc|].
    split; [now apply unique_range|apply sorted_increasing, unique_sorted].
  - rewrite nth_error_map, (nth_error_nth' L [] HdL). cbn [option_map]. f_equal. now apply unique_run.
Qed.

(** the axis made by default *)
Lemma flatten_axis (x : var) d c ai : nth_error (var_axes x) d = Some (Coord c) -> nth_error (var_axes x) (S d) = Some ai -> separate (var_axes x) ->
  exists y k, flatten_var env junk class_name x d None = Some y /\ var_axes y = set_at (remove_at (var_axes x) (S d)) d (Coord k) /\
    c_kind k = c_kind c /\ c_class k = c_class c /\
    c_vals k = List.concat (map (fun i => map (fun v => inject_Z (i * axis_len ai) + v)%Q (axis_vals ai)) (arange 0 (axis_len (Coord c)) 1)) /\
    separate (var_axes y).
Proof.
  intros Ho Hi Hsep. unfold flatten_var. rewrite Ho, Hi. cbn [bind]. eexists _, _. split; [reflexivity|]. split; [reflexivity|]. cbn [c_kind c_class c_vals var_axes].
  repeat (split; [reflexivity|]).
  assert (separate (remove_at (var_axes x) (S d))) as Hrem.
  { intros i j a b Ha Hb Hij. rewrite nth_error_remove in Ha, Hb. eapply Hsep; [exact Ha|exact Hb|]. destruct (Nat.ltb i (S d)) eqn:E1, (Nat.ltb j (S d)) eqn:E2; try apply Nat.ltb_lt in E1; try apply Nat.ltb_lt in E2; try apply Nat.ltb_ge in E1; try apply Nat.ltb_ge in E2; lia. }
  apply (separate_set (remove_at (var_axes x) (S d)) d (Coord c)); [exact Hrem|rewrite nth_error_remove; destruct (Nat.ltb_spec d (S d)); [exact Ho|lia]| |].
  - intros [e|e|e]; cbn [unrelated c_kind c_class c_name]; destruct (c_kind c) eqn:K; cbn [axis_class]; auto.
  - intros [e|e|e]; cbn [unrelated c_kind c_class c_name]; [|auto..]. destruct (c_kind e), (c_kind c) eqn:K; auto.
Qed.
End FlattenVar.
