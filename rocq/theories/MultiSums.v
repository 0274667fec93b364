(** The sums of multiple_regress. *)
From Coq Require Import ZArith List Bool Lia QArith_base Qcanon Permutation.
From Verif Require Import SortSpec IndexModel IndexSpec IndexProofs ArrModel ArrProofs ViewModel ViewSpec ViewProofs FibreProofs
     AxisModel AxisSpec AxisProofs VarOpsModel VarOpsSpec VarOpsProofs NumModel NumProofs ReduceModel ReduceSpec ReduceProofs ReduceKinds RespondProofs LoopProofs BlockProofs
     UfuncModel UfuncSpec UfuncProofs UfuncView RegressModel RegressSpec RegressAxes RegressSums MeansProofs MultiModel MultiSpec.
From Verif Require UfuncProps IntgrProofs InterpView.
Import ListNotations.
Open Scope Z_scope.
Open Scope list_scope.

Definition squeeze (s p : list Z) : list Z := map (fun '(m, x) => if m =? 1 then 0 else x) (combine s p).
Lemma squeeze_again : forall s w p, fits s w -> length p = length w -> squeeze s (squeeze w p) = squeeze s p.
Proof.
  intros s w p H. revert p. induction H as [|m n s w Hm _ IH]; intros [|x p] Hp; try discriminate; [reflexivity|]. unfold squeeze in *. cbn [combine map]. rewrite IH by (cbn in Hp; lia). f_equal.
  destruct (Z.eqb_spec m 1) as [E|E]; [reflexivity|]. destruct (Z.eqb_spec n 1) as [F|F]; [|reflexivity]. destruct Hm; congruence.
Qed.
Lemma length_squeeze s p : length s = length p -> length (squeeze s p) = length p.
Proof. intros H. unfold squeeze. rewrite map_length, combine_length. lia. Qed.
Lemma combine_app {A B} : forall (a a' : list A) (b b' : list B), length a = length b -> combine (a ++ a') (b ++ b') = combine a b ++ combine a' b'.
Proof. induction a as [|x a IH]; intros a' [|y b] b' H; try discriminate; [reflexivity|]. cbn. rewrite IH by (cbn in H; lia). reflexivity. Qed.
Lemma in_pos s p : In p (product (map (fun n => arange 0 n 1) s)) <-> position s p.
Proof. exact (InterpView.in_positions s p). Qed.
Lemma nth_error_skip {A} : forall n (l : list A) i, nth_error (skipn n l) i = nth_error l (n + i).
Proof. induction n as [|n IH]; intros l i; [reflexivity|]. destruct l as [|x l]; [now destruct i|]. cbn. apply IH. Qed.
Lemma squeeze_app s s' p p' : length s = length p -> squeeze (s ++ s') (p ++ p') = squeeze s p ++ squeeze s' p'.
Proof. intros H. unfold squeeze. rewrite combine_app by exact H. apply map_app. Qed.
Lemma squeeze_full s p : position s p -> squeeze s p = p.
Proof.
  induction 1 as [|n x s p Hx _ IH]; [reflexivity|]. unfold squeeze in *. cbn [combine map]. rewrite IH. f_equal. destruct (Z.eqb_spec n 1); [lia|reflexivity].
Qed.
Lemma fits_tail s w u : fits s w -> fits w u -> forall n, skipn n s = skipn n u -> skipn n w = skipn n u.
Proof.
  intros H1 H2 n. revert n u H2. induction H1 as [|m k s w Hm H1 IH]; intros n u H2 E; inversion H2 as [|? k' ? u' Hk H2']; subst; [now destruct n|].
  destruct n as [|n]; cbn [skipn] in *.
  - injection E as E1 E2. subst k'. f_equal; [destruct Hm as [->|Hm], Hk as [Hk|Hk]; congruence|]. exact (IH 0%nat u' H2' E2).
  - now apply IH.
Qed.

Section Sums.
Context (env : axenv) (Henv : env_ok env) (MAX : Z) (HMAX : 1 <= MAX) (junk : list Z -> num) (outer over : list axis).
Notation I := (outer ++ over).
Context (Hsep : separate I) (Hg : Forall good_axis I) (Hp : forall a, In a I -> 0 < axis_len a).
Notation n := (length outer).

Definition good_block (c : list (list Z)) (E : list Z -> num) (a : arr num) : Prop :=
  value_of (map zlen c) E c (Array a) /\ skipn n (shape a) = map zlen (skipn n c).
(** a variable whose axes are found in [I], at least all of [over] *)
Definition placed (x : var axis num) (D E : list Z -> num) : Prop :=
  responds env x D /\ exists js, Forall2 (located I) (var_axes x) js /\ NoDup (map fst js) /\ (forall i, (n <= i < length I)%nat -> In i (map fst js)) /\ E = derived_data D js.
Lemma outshape_tail s sigma k : (forall i, (k <= i < length s)%nat -> In i sigma) -> skipn k (outshape s sigma) = skipn k s.
Proof.
  intros H. apply nth_error_ext'. intros i. rewrite !nth_error_skip. destruct (nth_error s (k + i)) as [m|] eqn:E.
  - apply nth_outshape; [exact E|]. apply H. split; [lia|]. apply nth_error_Some. congruence.
  - apply nth_error_None. apply nth_error_None in E. pose proof (Forall2_len _ _ _ (outshape_fits s sigma)). lia.
Qed.
Lemma placed_block x D E c : placed x D E -> Forall2 selection I c -> exists a, get (axis_ops env) junk (view_of_inds I c) x true true = Some a /\ good_block c E a.
Proof.
  intros (Hx & js & Hjs & Hnd & Hall & ->) Hc. destruct (get_located env Henv junk I c x D js Hx Hc Hjs Hnd) as (r & Er & Hr). exists r. split; [exact Er|].
  split; [exact (located_value junk I c x D js r Hc Hjs Hr)|]. rewrite (proj1 Hr). rewrite outshape_tail; [apply skipn_map|]. intros i Hi. apply Hall. rewrite map_length, <- (Forall2_len _ _ _ Hc) in Hi. exact Hi.
Qed.
Lemma placed_data vars Ds Es c : Forall2 (fun '(x, D) E => placed x D E) (combine vars Ds) Es -> length vars = length Ds -> Forall2 selection I c ->
  exists data, sequence (map (fun x => get (axis_ops env) junk (view_of_inds I c) x true true) vars) = Some data /\ Forall2 (good_block c) Es data.
Proof.
  intros H Hl Hc. revert Ds Es H Hl. induction vars as [|x vars IH]; intros [|D Ds] Es H Hl; try discriminate; cbn [combine] in H; inversion H as [|? E ? Es' HE H']; subst.
  - exists []. split; [reflexivity|constructor].
  - destruct (placed_block x D E c HE Hc) as (a & Ea & Ha). destruct (IH Ds Es' H' ltac:(cbn in Hl; lia)) as (data & Ed & Hd). exists (a :: data). cbn [map sequence]. rewrite Ea, Ed. split; [reflexivity|now constructor].
Qed.
Lemma product_block c Es data i j E1 E2 : Forall2 (good_block c) Es data -> nth_error Es i = Some E1 -> nth_error Es j = Some E2 ->
  exists a, product_of i j data = Some a /\ good_block c (fun q => mul (E1 q) (E2 q)) a.
Proof.
  intros H Hi Hj. unfold product_of.
  assert (forall k E, nth_error Es k = Some E -> exists a, nth_error data k = Some a /\ good_block c E a) as Hk.
  { clear -H. intros k E Hk. revert k Hk. induction H as [|E' a Es data Ha _ IH]; intros [|k] Hk; try discriminate; [injection Hk as ->; exists a; split; [reflexivity|exact Ha]|exact (IH k Hk)]. }
  destruct (Hk i E1 Hi) as (a & -> & [[Fa Va] Ta]). destruct (Hk j E2 Hj) as (b & -> & [[Fb Vb] Tb]).
  unfold apply_op. cbn [flat_map app bcast_shapes].
  destruct (bcast_fits _ _ _ Fa Fb) as (w & -> & Fw & Fa' & Fb'). cbn [map].
  destruct (broadcast_fits a w Fa') as (a' & -> & _ & Ha'). destruct (broadcast_fits b w Fb') as (b' & -> & _ & Hb'). cbn [sequence].
  eexists. split; [reflexivity|]. split.
  - split; [exact Fw|]. intros p Hpp. cbn [val shape map at_position]. fold (squeeze w p). rewrite Ha', Hb'. fold (squeeze (shape a) (squeeze w p)). fold (squeeze (shape b) (squeeze w p)).
    assert (length p = length w) as Hlp by (rewrite (Forall2_len _ _ _ Fw); symmetry; exact (Forall2_len _ _ _ Hpp)).
    rewrite (squeeze_again _ _ _ Fa' Hlp), (squeeze_again _ _ _ Fb' Hlp). unfold squeeze. now rewrite (Va p Hpp), (Vb p Hpp).
  - cbn [shape]. rewrite <- skipn_map. apply (fits_tail _ _ _ Fa' Fw). rewrite Ta. symmetry. apply skipn_map.
Qed.
Lemma alone_block c Es data i E : Forall2 (good_block c) Es data -> nth_error Es i = Some E -> exists a, alone i data = Some a /\ good_block c E a.
Proof. intros H. revert i. unfold alone. induction H as [|E' a Es data Ha _ IH]; intros [|i] Hi; try discriminate; [injection Hi as ->; exists a; split; [reflexivity|exact Ha]|exact (IH i Hi)]. Qed.

Lemma multi_sum_spec vars Ds Es f h : Forall2 (fun '(x, D) E => placed x D E) (combine vars Ds) Es -> length vars = length Ds ->
  (forall c data, Forall2 selection I c -> Forall2 (good_block c) Es data -> exists a, f data = Some a /\ good_block c h a) ->
  exists r, multi_sum env junk MAX vars outer over f = Some r /\ shape r = map axis_len outer /\
    forall k, position (map axis_len outer) k -> val r k = np_sum (map (fun r => h (k ++ r)) (positions (map axis_len over))).
Proof.
  intros HE Hlen Hf. set (idx := seq n (length over)).
  assert (gone I idx = repeat false n ++ repeat true (length over)) as Eg by (unfold gone, idx; rewrite app_length; apply gone_tail).
  assert (kept_axes I idx = outer) as Ek by (rewrite kept_dropped; change (gone_axes (length I) idx) with (gone I idx); rewrite Eg; now apply dropped_tail).
  assert (NoDup idx) as Hnd by apply seq_NoDup.
  destruct (accumulate_view env Henv junk MAX HMAX I Hsep Hg idx (fun i a _ Ha => Hp a (nth_error_In _ _ Ha))
     (fun l w => w = np_sum (map h l)) (fun l b => b = np_sum (map h l)) zero add vars
     (fun data => match f data with Some a => Some (np_reduce np_sum a idx) | None => None end))
    with (L := map (fun a => arange 0 (axis_len a) 1) outer) as (r & Er & Sr & Vr).
  - intros l l' w P ->. apply (total_perm add zero add_monoid). now apply Permutation_map.
  - reflexivity.
  - intros l1 w l2 b -> _ ->. rewrite map_app. symmetry. apply (total_app add zero add_monoid).
  - intros c Hc. destruct (placed_data vars Ds Es c HE Hlen Hc) as (data & Ed & Hd). destruct (Hf c data Hc Hd) as (a & Ea & [[Fa Va] Ta]).
    exists data, (np_reduce np_sum a idx). rewrite Ea.
    pose proof (Forall2_len _ _ _ Hc) as Lc. rewrite app_length in Lc.
    destruct (Forall2_app_inv_l _ _ Hc) as (c1 & c2 & H1 & H2 & ->). pose proof (Forall2_len _ _ _ H1) as L1. pose proof (Forall2_len _ _ _ H2) as L2.
    rewrite Eg. rewrite (dropped_tail c1 c2) by auto.
    assert (shape a = firstn n (shape a) ++ map zlen c2) as Sa. { rewrite <- (firstn_skipn n (shape a)) at 1. f_equal. rewrite Ta, L1. rewrite skipn_app, skipn_all, Nat.sub_diag. reflexivity. }
    remember (firstn n (shape a)) as s1 eqn:E1. assert (length (shape a) = (n + length over)%nat) as La by (rewrite (Forall2_len _ _ _ Fa), map_length, app_length; lia).
    assert (length s1 = n) as Ls by (rewrite E1, firstn_length; lia).
    assert (fits s1 (map zlen c1)) as F1. { rewrite Sa, map_app in Fa. apply Forall2_app_inv_l in Fa as (u1 & u2 & G1 & G2 & Eu). assert (u1 = map zlen c1) as <-; [|exact G1].
      pose proof (Forall2_len _ _ _ G1) as K. apply (f_equal (firstn n)) in Eu. rewrite !firstn_app, map_length, <- L1, <- K, Ls, Nat.sub_diag, !firstn_O, !app_nil_r in Eu.
      rewrite <- (map_length zlen c1) in L1. rewrite L1, firstn_all in Eu at 1. rewrite Eu. rewrite <- Ls, K. symmetry. apply firstn_all. }
    destruct (np_reduce_spec np_sum (fun l v => v = np_sum l) idx a) as [Es' Ev].
    { intros v. unfold np_sum. cbn. now rewrite add_0_r. } { intros ls vs H. assert (vs = map np_sum ls) as -> by (induction H; cbn [map]; congruence). symmetry. apply (total_concat add zero add_monoid). }
    { exact Hnd. } { apply Forall_forall. intros i Hi. apply in_seq in Hi. lia. }
    rewrite La in Es', Ev. unfold idx in Es', Ev. rewrite gone_tail in Es', Ev. fold idx in Es', Ev. rewrite Sa in Es', Ev. rewrite (dropped_tail s1 (map zlen c2)) in Es', Ev by (rewrite ?map_length; auto).
    rewrite <- Es' in F1. destruct (broadcast_fits _ _ F1) as (b' & Eb & _ & Hb). exists b'. split; [exact Ed|]. split; [reflexivity|]. split; [exact Eb|].
    intros p Hpp. rewrite Hb. rewrite Es' in *. fold (squeeze s1 p). pose proof (Forall2_len _ _ _ Hpp) as Lp. rewrite map_length in Lp.
    rewrite Ev by (rewrite length_squeeze; lia). f_equal. rewrite map_app.
    rewrite (fibl_tail (map (fun m => arange 0 m 1) s1) _ (squeeze s1 p)) by (rewrite ?length_squeeze, ?map_length; lia).
    rewrite product_tail, map_map.
    pose proof (map_gather_fibl (repeat false n ++ repeat true (length over)) (c1 ++ c2) p) as Hmg. rewrite (dropped_tail c1 c2) in Hmg by auto.
    rewrite <- Hmg by (rewrite ?app_length, ?repeat_length; auto; lia). clear Hmg. rewrite map_app.
    rewrite (fibl_tail (map (fun l => arange 0 (zlen l) 1) c1) _ p) by (rewrite ?map_length; lia).
    rewrite product_tail, !map_map.
    apply map_ext_in. intros q Hq.
    assert (position (map zlen c2) q) as Hq' by (apply in_pos; rewrite map_map; exact Hq).
    rewrite <- (Va (p ++ q)) by (rewrite map_app; now apply Forall2_app).
    f_equal. rewrite Sa. fold (squeeze (s1 ++ map zlen c2) (p ++ q)). rewrite squeeze_app by lia. now rewrite (squeeze_full _ _ Hq').
  - rewrite Ek. apply (aranges_selection outer). intros a Ha. apply Hp, in_app_iff. now left.
  - rewrite Ek in Er. exists r. unfold multi_sum. rewrite full_view_eq. fold idx. split; [exact Er|].
    assert (forall a, In a outer -> 0 < axis_len a) as HK by (intros a Ha; apply Hp, in_app_iff; now left).
    rewrite (proj2 (aranges_selection outer HK)) in *. split; [exact Sr|]. intros k Hk. specialize (Vr k Hk).
    rewrite Eg, map_app in Vr. rewrite (gather_axis_aranges (V:=num) junk outer k Hk) in Vr.
    rewrite <- (map_length axis_len outer), <- (map_length axis_len over) in Vr. rewrite fibre_tail in Vr by exact Hk. rewrite map_map in Vr. exact Vr.
Qed.
End Sums.
