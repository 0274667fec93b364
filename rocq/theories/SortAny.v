(** sorted() of variables that are computed when they are read, such as a concatenation. *)
From Coq Require Import ZArith List Bool Lia QArith_base Permutation.
From Verif Require Import TimeSearchSpec SortSpec IndexModel IndexSpec IndexProofs ArrModel ArrProofs ViewModel ViewSpec ViewProofs AxisModel AxisSpec AxisProofs
  VarOpsModel VarOpsSpec VarOpsProofs VarOpsLemmas ReduceModel ReduceSpec RespondProofs.
Import ListNotations.
Open Scope Z_scope.

Section Any.
Context {V : Type} (env : axenv) (Henv : env_ok env) (junk : list Z -> V).

Lemma take_responds (x : var axis V) D inds : responds env x D -> Forall good_axis (var_axes x) ->
  Forall2 (fun a l => in_range (axis_len a) l) (var_axes x) inds -> Forall (@NoDup Z) inds ->
  responds env (wrapped env junk x (map (fun '(a, ind) => axis_take env a ind) (combine (var_axes x) inds))) (fun p => D (gather inds p)).
Proof.
  intros Hx Hg Hr Hnd. pose proof Hx as [Hsep _]. pose proof (Forall2_len _ _ _ Hr) as HL.
  pose proof (take_derived env Henv (var_axes x) inds Hsep Hg Hr) as Hd.
  set (B := map (fun '(a, ind) => axis_take env a ind) (combine (var_axes x) inds)) in *.
  assert (map fst (combine (seq 0 (length (var_axes x))) inds) = seq 0 (length (var_axes x))) as Hf by (apply map_fst_combine; rewrite seq_length; lia).
  assert (length B = length (var_axes x)) as HB by (unfold B; rewrite map_length, combine_length; lia).
  split.
  - cbn. eapply derived_separate; [exact Hd|]. rewrite Hf, HB. intros i Hi. apply in_seq. lia.
  - cbn [wrapped var_source var_axes]. intros L HLs. pose proof (Forall2_len _ _ _ HLs) as HlL.
    destruct (get_derived_any env Henv junk B L x D (combine (seq 0 (length (var_axes x))) inds) Hx) with (2 := Hd) as (r & Hr1 & Hr2).
    + eapply Forall2_impl; [|exact HLs]. intros a l (H1 & H2 & _). split; assumption.
    + rewrite Hf. apply seq_NoDup.
    + apply Forall_forall. intros [i ind] Hin. apply In_nth_error in Hin as [k Hk]. rewrite nth_error_combine, nth_error_seq in Hk.
      destruct (Nat.ltb_spec k (length (var_axes x))) as [Hlt|]; [|discriminate]. destruct (nth_error inds k) as [l|] eqn:El; [|discriminate].
      injection Hk as <- <-. cbn [Nat.add]. destruct (nth_error (var_axes x) k) as [a|] eqn:Ea; [|apply nth_error_None in Ea; lia].
      destruct (nth_error L k) as [s|] eqn:Es; [|apply nth_error_None in Es; lia]. rewrite (nth_error_nth _ _ _ Es).
      assert (nth_error B k = Some (axis_take env a l)) as Eb by (unfold B; rewrite nth_error_map, nth_error_combine, Ea, El; reflexivity).
      destruct (Forall2_nth_error _ _ _ _ _ _ HLs Eb Es) as (Hne & Hs & Hi).
      pose proof (Forall2_nth_error _ _ _ _ _ _ Hr Ea El) as Hl. cbn in Hl.
      assert (axis_len (axis_take env a l) = zlen l) as Elen.
      { eapply sliced_len; [|apply (sliced_self env Henv); [|exact Hl]]; rewrite Forall_forall in Hg; apply Hg; eapply nth_error_In; exact Ea. }
      assert (NoDup l) as Hndl by (rewrite Forall_forall in Hnd; apply Hnd; eapply nth_error_In; exact El).
      destruct s as [|u [|v s]]; [congruence|now left|]. right. exists (znth l u), (znth l v). split; [cbn; tauto|]. split; [cbn; tauto|].
      assert (u < v) as Huv by (apply (Hi 0 1 u v); try lia; split; auto; lia).
      rewrite Elen in Hs. unfold in_range in Hs. rewrite Forall_forall in Hs.
      assert (forall w, In w (u :: v :: s) -> elem l w (znth l w)) as Hz.
      { intros w Hw. specialize (Hs w Hw). cbv beta in Hs. unfold zlen in Hs. split; [lia|]. unfold znth. apply nth_error_nth'. lia. }
      intros E. destruct (Hz u) as [Hu0 Hu]; [now left|]. destruct (Hz v) as [Hv0 Hv]; [right; now left|]. rewrite E in Hu.
      assert (Z.to_nat u = Z.to_nat v) as K; [|lia]. apply (proj1 (NoDup_nth_error l) Hndl); [apply nth_error_Some; congruence|congruence].
    + exists r. split; [exact Hr1|]. rewrite Hf in Hr2. rewrite outshape_full in Hr2.
      2:{ rewrite map_length, <- HlL, HB. intros i Hi. apply in_seq. lia. }
      eapply array_is_ext; [exact Hr2|]. intros p Hp. unfold derived_data. f_equal. rewrite HL. apply (gather_combine_seq junk).
      pose proof (Forall2_len _ _ _ Hp) as E. rewrite map_length in E. rewrite gather_length; congruence.
Qed.

(** the elements that sorting takes, axis by axis *)
Definition sort_indices (axes : list axis) (order : list (option bool)) : list (list Z) := map (fun '(a, o) => sort_index env a o) (combine axes order).
Lemma sort_indices_spec axes order : Forall good_axis axes -> length order = length axes ->
  let inds := sort_indices axes order in
  Forall2 (fun a l => in_range (axis_len a) l) axes inds /\ Forall (@NoDup Z) inds /\ map zlen inds = map axis_len axes /\
  map (fun '(a, o) => match o with Some r => axis_take env a (axis_argsort env a r) | None => a end) (combine axes order) =
    map (fun '(a, ind) => axis_take env a ind) (combine axes inds).
Proof.
  intros Hg Ho inds. unfold inds, sort_indices. revert order inds Ho. induction axes as [|a axs IH]; intros [|o order] inds Ho; try discriminate; [repeat split; constructor|].
  inversion Hg; subst. destruct (IH H2 order) as (I1 & I2 & I3 & I4); [cbn in Ho; lia|].
  assert (in_range (axis_len a) (sort_index env a o) /\ NoDup (sort_index env a o) /\ zlen (sort_index env a o) = axis_len a /\
    match o with Some r => axis_take env a (axis_argsort env a r) | None => a end = axis_take env a (sort_index env a o)) as (J1 & J2 & J3 & J4).
  { destruct o as [r|]; cbn [sort_index].
    - destruct (argsort_perm env Henv a r H1) as (K1 & K2 & K3). repeat split; auto. rewrite (zlen_perm _ _ K3). pose proof (axis_len_nonneg a). lia.
    - repeat split; [apply range_arange|apply NoDup_arange|apply zlen_arange, axis_len_nonneg|symmetry; now apply axis_take_all]. }
  cbn [combine map]. split; [constructor; auto|]. split; [constructor; auto|]. split; f_equal; auto.
Qed.
Lemma sort_responds (x : var axis V) D order : responds env x D -> Forall good_axis (var_axes x) -> length order = length (var_axes x) ->
  responds env (sort_var env junk x order) (fun p => D (gather (sort_indices (var_axes x) order) p)).
Proof.
  intros Hx Hg Ho. destruct (sort_indices_spec (var_axes x) order Hg Ho) as (H1 & H2 & _ & H4). unfold sort_var. rewrite H4. now apply take_responds.
Qed.
End Any.
