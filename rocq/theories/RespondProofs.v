(** Reading variables that answer increasing requests. *)
From Coq Require Import ZArith List Bool Lia Permutation Sorted.
From Verif Require Import SortSpec IndexModel IndexSpec IndexProofs ArrModel ViewModel ViewSpec ArrProofs ViewProofs AxisModel AxisSpec AxisProofs
  VarOpsModel VarOpsSpec VarOpsProofs NumModel ReduceModel ReduceSpec LoopProofs.
Import ListNotations.
Open Scope Z_scope.

Lemma insert_below x l : (forall y, In y l -> x < y) -> insert x l = x :: l.
Proof. destruct l as [|y l]; intros H; [reflexivity|]. cbn. specialize (H y (or_introl eq_refl)). now destruct (Z.ltb_spec x y); [|lia]. Qed.

Lemma increasing_tail x l : increasing (x :: l) -> increasing l /\ forall y, In y l -> x < y.
Proof.
  intros H. split.
  - intros i j a b Ha Hb Hij. apply (H (i + 1) (j + 1)); [| |lia]; (destruct Ha as [Ha Ha'], Hb as [Hb Hb']); split; try lia;
    rewrite Z.add_1_r, Z2Nat.inj_succ by assumption; assumption.
  - intros y Hy. apply In_nth_error in Hy as [n Hn]. apply (H 0 (Z.of_nat (S n))); [split; [lia|reflexivity]| |lia].
    split; [lia|]. rewrite Nat2Z.id. exact Hn.
Qed.

Lemma unique_increasing l : increasing l -> np_unique l = l.
Proof.
  induction l as [|x l IH]; intros H; [reflexivity|]. apply increasing_tail in H as [H1 H2]. change (np_unique (x :: l)) with (insert x (np_unique l)). rewrite IH by exact H1. now apply insert_below.
Qed.

Lemma np_all_eq_refl l : np_all_eq l l = true.
Proof. unfold np_all_eq. rewrite Nat.eqb_refl. induction l as [|x l IH]; [reflexivity|]. cbn. now rewrite Z.eqb_refl, IH. Qed.

Lemma selection_various a l : selection a l -> choice a l.
Proof.
  intros (H1 & H2 & H3). split; [exact H2|]. destruct l as [|i [|j l]]; [congruence|now left|right]. exists i, j.
  apply increasing_tail in H3 as [_ H3]. specialize (H3 j (or_introl eq_refl)). cbn. repeat split; auto. lia.
Qed.
Lemma choice_ne a l : choice a l -> l <> [].
Proof. intros [_ [H|(i & j & H & _)]] ->; [discriminate H|destruct H]. Qed.
Lemma increasing_various l : l <> [] -> increasing l -> various l.
Proof.
  intros H1 H3. destruct l as [|i [|j l]]; [congruence|now left|right]. exists i, j.
  apply increasing_tail in H3 as [_ H3]. specialize (H3 j (or_introl eq_refl)). cbn. repeat split; auto. lia.
Qed.

Section Respond.
Context {V : Type} (env : axenv) (Henv : env_ok env) (junk : list Z -> V).
Notation ops := (axis_ops env).
Notation get := (ViewModel.get ops junk).
Notation var := (ViewModel.var axis V).

Lemma getable_responds (x : var) D : getable env x D -> responds env x D.
Proof.
  intros [H Hs]. split; [exact Hs|]. unfold represents in *. destruct (var_source x); auto.
  intros inds Hi. apply H. eapply Forall2_impl; [|exact Hi]. intros a l (H1 & H2 & H3). repeat split; auto.
Qed.

Lemma fetch_any (x : var) D mm : responds env x D -> Forall2 choice (var_axes x) mm ->
  exists r, fetch junk x (view_of_inds (var_axes x) mm) = Some r /\ array_is r (map zlen mm) (fun p => D (gather mm p)).
Proof.
  intros [Hsep Hx] Hm.
  assert (Forall2 (fun b l => l <> [] /\ in_range (axis_len b) l) (var_axes x) mm) as Hm'.
  { eapply Forall2_impl; [|exact Hm]. intros b l H. split; [now apply (choice_ne b)|apply H]. }
  destruct (var_source x) as [a|f|f] eqn:Ex.
  - apply (fetch_spec ops); [exact Hx|exact Hm'].
  - apply fetch_gen.
    + intros E. unfold read. rewrite Ex. apply Hx. revert E. clear -Hm Hm'. induction Hm as [|a l axes ms [H1 H2] Hm IH]; intros E; [constructor|].
      inversion Hm' as [|? ? ? ? [Hne _] Hm'']; subst. cbn [map combine forallb] in E. apply andb_prop in E as [E1 E2]. constructor; [|now apply IH].
      destruct (np_all_eq_request (axis_len a) l Hne H1 E1) as (_ & _ & [Hi|Hc]); [split; auto|].
      split; [exact Hne|]. split; [exact H1|]. destruct H2 as [H2|(i & j & Hi & Hj & Hij)]; [|exfalso; apply Hij; auto].
      destruct l as [|y [|z l]]; [congruence| |unfold zlen in H2; cbn [length] in H2; lia].
      unfold increasing. intros i j u v Hu Hv Hlt. apply elem_lt in Hu, Hv. unfold zlen in *. cbn in *. lia.
    + unfold read. rewrite Ex. apply Hx. apply Forall2_map_r. eapply Forall2_impl; [|exact Hm']. intros b l [H1 H2].
      split; [now apply unique_ne|]. split; [now apply unique_range|apply sorted_increasing, unique_sorted].
  - apply (fetch_spec ops); [exact Hx|exact Hm'].
Qed.
Lemma fetch_inc (x : var) D mm : responds env x D -> Forall2 selection (var_axes x) mm ->
  exists r, fetch junk x (view_of_inds (var_axes x) mm) = Some r /\ array_is r (map zlen mm) (fun p => D (gather mm p)).
Proof.
  intros Hx Hm. apply fetch_any; [exact Hx|]. eapply Forall2_impl; [|exact Hm]. exact selection_various.
Qed.

Lemma get_derived_any B L (x : var) D js : responds env x D ->
  Forall2 (fun b l => l <> [] /\ in_range (axis_len b) l) B L ->
  Forall2 (derived B) (var_axes x) js -> NoDup (map fst js) ->
  Forall (fun '(i, ind) => various (map (znth ind) (nth i L []))) js ->
  exists r, get (view_of_inds B L) x true true = Some r /\
    array_is r (outshape (map zlen L) (map fst js)) (fun p => derived_data D js (gather L p)).
Proof.
  intros Hx HBL Hjs Hnd Hinc. apply (get_derived_fetch env Henv junk); auto. cbv zeta. apply fetch_any; [exact Hx|].
  pose proof (Forall2_len _ _ _ HBL) as HL.
  apply Forall2_map_r. apply Forall2_intro_nth; [eapply Forall2_len, Hjs|]. intros k a [i ind] Ha Hj.
  pose proof (Forall2_nth_error _ _ _ _ _ _ Hjs Ha Hj) as Hd. destruct Hd as (Hr & b & Hb & Hs & Hun). cbn [fst snd] in *.
  destruct (nth_error L i) as [l|] eqn:El. 2:{ apply nth_error_None in El. assert (i < length B)%nat by (apply nth_error_Some; congruence). lia. }
  destruct (Forall2_nth_error _ _ _ _ _ _ HBL Hb El) as [Hne Hrl].
  assert (various (map (znth ind) (nth i L []))) as Hi.
  { rewrite Forall_forall in Hinc. exact (Hinc (i, ind) (nth_error_In _ _ Hj)). }
  rewrite (nth_error_nth _ _ _ El) in *. split; [|exact Hi].
  assert (mapped ops (view_of_inds B L) a (i, map (znth ind) l)) as (_ & H & _); [|exact H].
  apply (derived_mapped env Henv junk); [|exact (Forall2_nth_error _ _ _ _ _ _ Hjs Ha Hj)|exact El].
  eapply Forall2_impl; [|exact HBL]. cbn. tauto.
Qed.

Lemma get_derived_inc B L (x : var) D js : responds env x D ->
  Forall2 (fun b l => l <> [] /\ in_range (axis_len b) l) B L ->
  Forall2 (derived B) (var_axes x) js -> NoDup (map fst js) ->
  Forall (fun '(i, ind) => increasing (map (znth ind) (nth i L []))) js ->
  exists r, get (view_of_inds B L) x true true = Some r /\
    array_is r (outshape (map zlen L) (map fst js)) (fun p => derived_data D js (gather L p)).
Proof.
  intros Hx HBL Hjs Hnd Hinc. apply get_derived_any; auto. pose proof (Forall2_len _ _ _ HBL) as HL.
  apply Forall_forall. intros [i ind] Hj. rewrite Forall_forall in Hinc. specialize (Hinc _ Hj). apply increasing_various; [|exact Hinc].
  apply (Forall2_In_r _ _ _ _ Hjs) in Hj as (a & _ & _ & b & Hb & _). cbn [fst] in Hb.
  destruct (nth_error L i) as [l|] eqn:El. 2:{ apply nth_error_None in El. assert (i < length B)%nat by (apply nth_error_Some; congruence). lia. }
  destruct (Forall2_nth_error _ _ _ _ _ _ HBL Hb El) as [Hne _]. rewrite (nth_error_nth _ _ _ El). now destruct l.
Qed.

Lemma responds_delivers (x : var) D : responds env x D -> delivers env junk x D.
Proof.
  intros Hx inds Hi. pose proof (Forall2_len _ _ _ Hi) as HL. pose proof Hx as [Hsep _].
  assert (Forall2 (fun b l => l <> [] /\ in_range (axis_len b) l) (var_axes x) inds) as Hi'.
  { eapply Forall2_impl; [|exact Hi]. intros a l H. split; [now apply (choice_ne a)|apply H]. }
  destruct (get_derived_any (var_axes x) inds x D _ Hx Hi' (own_derived _ Hsep)) as (r & Hr & Hs & Hv).
  - assert (forall (l : list nat) (l' : list (list Z)), length l = length l' -> map fst (combine l l') = l) as HH
      by (induction l; intros [|? ?] E; simpl in *; try lia; [reflexivity|f_equal; auto]).
    rewrite HH by (rewrite seq_length, map_length; reflexivity). apply seq_NoDup.
  - apply Forall_forall. intros [i ind] Hin. apply In_nth_error in Hin as [k Hk]. rewrite nth_error_combine, nth_error_seq, nth_error_map in Hk.
    destruct (Nat.ltb_spec k (length (var_axes x))) as [Hlt|]; [|discriminate]. destruct (nth_error (var_axes x) k) as [a|] eqn:Ea; [|discriminate].
    cbn in Hk. injection Hk as <- <-. destruct (nth_error inds k) as [l|] eqn:El; [|apply nth_error_None in El; lia].
    rewrite (nth_error_nth _ _ _ El). destruct (Forall2_nth_error _ _ _ _ _ _ Hi Ea El) as (Hr & Hinc).
    rewrite arange_znth by exact Hr. exact Hinc.
  - exists r. split; [exact Hr|].
    assert (map fst (combine (seq 0 (length (var_axes x))) (map (fun a => arange 0 (axis_len a) 1) (var_axes x))) = seq 0 (length (var_axes x))) as Hf.
    { assert (forall (l : list nat) (l' : list (list Z)), length l = length l' -> map fst (combine l l') = l) as HH
      by (induction l; intros [|? ?] E; simpl in *; try lia; [reflexivity|f_equal; auto]).
      apply HH. rewrite seq_length, map_length. reflexivity. }
    assert (outshape (map zlen inds) (seq 0 (length (var_axes x))) = map zlen inds) as Ho.
    { apply outshape_full. rewrite map_length, <- HL. intros i H. apply in_seq. lia. }
    rewrite Hf, Ho in *. split; [exact Hs|]. intros p Hp. rewrite (Hv p Hp). unfold derived_data. f_equal.
    assert (position (map axis_len (var_axes x)) (gather inds p)) as Hg.
    { apply gather_position with (ns := map axis_len (var_axes x)); [|exact Hp]. apply Forall2_map_l. eapply Forall2_impl; [|exact Hi']. cbn. tauto. }
    clear -Hg. pose proof (Forall2_len _ _ _ Hg) as Hl. rewrite map_length in Hl.
    apply nth_error_ext'. intros k. rewrite nth_error_map, nth_error_combine, nth_error_seq, nth_error_map.
    destruct (Nat.ltb_spec k (length (var_axes x))) as [Hlt|Hge].
    + destruct (nth_error (var_axes x) k) as [a|] eqn:Ea; [|apply nth_error_None in Ea; lia]. cbn.
      destruct (nth_error (gather inds p) k) as [g|] eqn:Eg; [|apply nth_error_None in Eg; lia].
      rewrite (nth_error_nth _ _ _ Eg). f_equal. 
      assert (0 <= g < axis_len a) as Hb.
      { refine (Forall2_nth_error _ _ _ _ _ _ Hg _ Eg). now rewrite nth_error_map, Ea. }
      change (znth (arange 0 (axis_len a) 1) g = g); rewrite znth_arange1; lia.
    + symmetry. apply nth_error_None. lia.
Qed.

(** reading everything *)
Lemma responds_get (x : var) D : responds env x D -> exists r, var_get env junk x = Some r /\ array_is r (var_shape x) D.
Proof.
  intros Hx. destruct (existsb (fun a => axis_len a =? 0) (var_axes x)) eqn:E.
  - apply (getable_var_get env junk). destruct Hx as [Hsep Hx]. split; [|exact Hsep].
    unfold represents. destruct (var_source x) as [a|f|f] eqn:Ex; [unfold represents in Hx; rewrite Ex in Hx; exact Hx| |unfold represents in Hx; rewrite Ex in Hx; exact Hx].
    intros inds Hi. exfalso. apply existsb_exists in E as (a & Ha & E%Z.eqb_eq). revert E Ha. clear -Hi. induction Hi as [|b l axes inds (H1 & H2 & _) _ IH]; intros E [].
    + subst b. cbn [len axis_ops] in H2. destruct l as [|y l]; [congruence|]. inversion H2; lia.
    + auto.
  - unfold var_get. rewrite full_view_eq.
    assert (map zlen (map (fun a => arange 0 (axis_len a) 1) (var_axes x)) = var_shape x) as Hz.
    { unfold var_shape. rewrite map_map. apply map_ext. intros a. apply zlen_arange, axis_len_nonneg. }
    destruct (responds_delivers x D Hx (map (fun a => arange 0 (axis_len a) 1) (var_axes x))) as (r & Hr & Ha).
    { apply Forall2_map_r. revert E. clear. induction (var_axes x) as [|a axes IH]; intros E; [constructor|]. cbn in E. apply orb_false_iff in E as [E1 E2].
      constructor; [|now apply IH]. apply selection_various. pose proof (axis_len_nonneg a) as Hn. apply Z.eqb_neq in E1. pose proof (zlen_arange (axis_len a) Hn) as Hl. split; [|split].
      - intros E. rewrite E in Hl. unfold zlen in Hl. cbn in Hl. lia.
      - apply range_arange.
      - intros i j u v Hu Hv Hij. apply elem_arange01 in Hu, Hv. lia. }
    exists r. split; [exact Hr|]. rewrite Hz in Ha. eapply array_is_ext; [exact Ha|].
    intros p Hp. cbv beta. rewrite (gather_axis_aranges junk) by exact Hp. reflexivity.
Qed.
Lemma load_responds (x : var) D : responds env x D -> exists y, load env x junk = Some y /\ var_axes y = var_axes x /\ getable env y D.
Proof.
  intros Hx. unfold load. destruct (responds_get x D Hx) as (r & Hr & Ha). pose proof Hx as [Hsep Hx'].
  destruct (var_source x) as [a|f|f] eqn:Ex.
  - exists x. split; [reflexivity|]. split; [reflexivity|]. split; [exact Hx'|exact Hsep].
  - rewrite Hr. eexists. split; [reflexivity|]. split; [reflexivity|]. split; [exact Ha|exact Hsep].
  - rewrite Hr. eexists. split; [reflexivity|]. split; [reflexivity|]. split; [exact Ha|exact Hsep].
Qed.

Lemma responds_part (x : var) D inds : responds env x D -> Forall2 selection (var_axes x) inds ->
  exists r, get (view_of_inds (var_axes x) inds) x true true = Some r /\ array_is r (map zlen inds) (fun p => D (gather inds p)).
Proof. intros Hx Hi. apply responds_delivers; [exact Hx|]. eapply Forall2_impl; [|exact Hi]. exact selection_various. Qed.
End Respond.
