(** loopover without reduction: the blocks of the requested part of a variable, some axes kept whole. *)
From Coq Require Import ZArith List Bool Lia Permutation.
From Verif Require Import TimeSearchModel SortSpec IndexModel IndexSpec IndexProofs ArrModel ArrProofs ViewModel ViewSpec ViewProofs ChunkProofs
     AxisModel AxisSpec AxisProofs VarOpsModel VarOpsSpec VarOpsProofs ReduceModel ReduceSpec LoopProofs RespondProofs StencilModel StencilProofs IntgrProofs WindowModel WindowProofs.
Import ListNotations.
Open Scope Z_scope.

Lemma dropped_none {A} (l : list A) : forall n, n = length l -> dropped (repeat false n) l = l.
Proof. induction l as [|x l IH]; intros n ->; [reflexivity|]. cbn. f_equal. now apply IH. Qed.
Lemma cut_length J se c : cut J se c -> length se = length J /\ length c = length J.
Proof. intros [H1 H2]. apply Forall2_len in H2. rewrite combine_length in H2. lia. Qed.

Lemma in_product (ls : list (list Z)) : forall q, In q (product ls) <-> Forall2 (fun l x => In x l) ls q.
Proof.
  intros q. split.
  - intros H. apply In_elem in H as [k Hk]. now apply product_elem_Forall2 in Hk.
  - intros H. destruct (product_exists (fun a x => a = x) ls q) as (k & t & Hk & Ht).
    + eapply Forall2_impl; [|exact H]. intros l x Hx. apply In_elem in Hx as [k Hk]. eauto.
    + assert (t = q) as -> by (clear -Ht; induction Ht; congruence). now apply elem_In in Hk.
Qed.

Section Blocks.
Context {V : Type} (env : axenv) (Henv : env_ok env) (junk : list Z -> V) (MAX : Z) (HMAX : 1 <= MAX).
Notation var := (ViewModel.var axis V).

Definition block_of (D : list Z -> V) (J : list (list Z)) (c : list (list Z)) (item : list sel * list (arr V)) : Prop :=
  exists se r, cut J se c /\ item = (map (fun '(s, e) => simplify (arange s e 1)) se, [r]) /\ array_is r (map zlen c) (fun p => D (gather c p)).

Theorem loop_blocks (x : var) D J preserve : responds env x D -> Forall good_axis (var_axes x) -> Forall2 selection (var_axes x) J ->
  NoDup preserve -> Forall (fun i => (i < length J)%nat) preserve ->
  exists its, loopover env junk MAX [x] (var_axes x) (view_of_inds (var_axes x) J) preserve = Some its /\
    Forall2 (block_of D J) (loop_mem MAX J preserve) its.
Proof.
  intros Hx Hgood HJ Hnd Hin. pose proof (proj1 Hx) as Hsep. set (axes := var_axes x) in *. set (gone := repeat false (length axes)).
  assert (length gone = length axes) as Hgl by apply repeat_length.
  assert (full_inds axes gone J) as HF.
  { split; [exact HJ|]. intros i a l Hi. exfalso. apply nth_error_In in Hi. apply repeat_spec in Hi. discriminate. }
  pose proof (Forall2_len _ _ _ HJ) as HlJ.
  pose proof (clip_eq env junk axes gone Hgl J HF) as Hclip. destruct (inview_eq env Henv junk axes Hsep Hgood gone Hgl J HF) as [order Hinv].
  pose proof (outview_eq env Henv junk axes Hsep Hgood gone Hgl J HF) as Hout.
  assert (forall A (l : list A), length l = length axes -> dropped gone l = l) as Hdr by (intros A l Hl; apply dropped_none; lia).
  rewrite (Hdr _ axes), (Hdr _ J) in Hclip by lia.
  unfold loopover. rewrite Hclip, Hinv. cbn [vinds vaxes view_of_inds].
  assert (Forall (fun l => l <> []) J) as Hne.
  { apply Forall_forall. intros l Hl. apply (Forall2_In_r _ _ _ _ HJ) in Hl as (a & _ & H & _). exact H. }
  pose proof (loop_mem_subr MAX J preserve HMAX Hne Hnd Hin) as Hsub. revert Hsub.
  induction (loop_mem MAX J preserve) as [|c chunks IH]; intros Hsub; [exists []; split; constructor|].
  destruct IH as (its & Hits & HFi); [intros; apply Hsub; now right|].
  specialize (Hsub c (or_introl eq_refl)). destruct (subr_split J c Hsub) as (se & Hc). destruct (cut_length _ _ _ Hc) as [Hls Hlc].
  destruct (Hout c se Hc) as [o Ho].
  destruct (own_get env Henv junk x D c Hx) as (r & Hr & Hra).
  { apply Forall2_intro_nth; [apply Forall2_len in Hsub; fold axes; lia|]. intros i a ci Ha Hci. fold axes in Ha.
    destruct (nth_error J i) as [l|] eqn:El; [|apply nth_error_None in El; assert (i < length axes)%nat by (apply nth_error_Some; congruence); lia].
    pose proof (Forall2_nth_error _ _ _ _ _ _ Hsub El Hci) as Hs. destruct (Forall2_nth_error _ _ _ _ _ _ HJ Ha El) as (_ & H1 & H2).
    split; [now apply (subr_range _ l)|now apply (increasing_subr l)]. }
  cbn [map sequence]. rewrite Ho. fold axes in Hr. rewrite Hr. cbv zeta in Hits. cbn [map sequence] in Hits. rewrite Hits.
  eexists. split; [reflexivity|]. constructor; [|exact HFi].
  exists se, r. split; [exact Hc|]. split; [|exact Hra]. cbn [vslices view_of_inds]. rewrite map_map. f_equal.
  rewrite Hdr by lia. apply map_ext. intros [s e]. reflexivity.
Qed.

(** every element is in one of them *)
Lemma block_covers J preserve : Forall (fun l => l <> []) J -> Forall increasing J -> NoDup preserve -> Forall (fun i => (i < length J)%nat) preserve ->
  forall p, position (map zlen J) p -> exists c, In c (loop_mem MAX J preserve) /\ forall se, cut J se c -> hits se p.
Proof.
  intros Hne Hinc Hnd Hin p Hp. destruct (loop_mem_spec MAX J preserve HMAX Hne Hnd Hin) as [HP _].
  assert (Forall (@NoDup Z) J) as HND by (eapply Forall_impl; [|exact Hinc]; intros l; apply increasing_NoDup).
  assert (In (gather J p) (product J)) as Hg.
  { apply in_product. pose proof (gather_in J p Hp HND) as K. eapply Forall2_impl; [|exact K]. intros l y [_ H]. exact H. }
  apply (Permutation_in _ (Permutation_sym HP)) in Hg. apply in_flat_map in Hg as (c & Hc & Hg). exists c. split; [exact Hc|].
  intros se Hcut. destruct (cut_length _ _ _ Hcut) as [Hls Hlc].
  pose proof (cut_miss J HND se c (repeat false (length J)) p Hcut) as K. rewrite !dropped_none in K by lia. apply K; [exact Hp|]. now apply in_product.
Qed.
Lemma block_keeps J preserve : Forall (fun l => l <> []) J -> NoDup preserve -> Forall (fun i => (i < length J)%nat) preserve ->
  forall c se i l, In c (loop_mem MAX J preserve) -> cut J se c -> In i preserve -> nth_error J i = Some l -> nth_error se i = Some (0, zlen l) /\ nth_error c i = Some l.
Proof.
  intros Hne Hnd Hin c se i l Hc Hcut Hi Hl. destruct (loop_mem_spec MAX J preserve HMAX Hne Hnd Hin) as [_ HC].
  destruct (HC c Hc) as (K & _ & _). specialize (K i Hi). destruct (cut_length _ _ _ Hcut) as [Hls Hlc].
  assert (i < length J)%nat as Hil by (apply nth_error_Some; congruence).
  destruct (nth_error c i) as [ci|] eqn:Ec; [|apply nth_error_None in Ec; lia]. destruct (nth_error se i) as [[s e]|] eqn:Es; [|apply nth_error_None in Es; lia].
  rewrite (nth_error_nth _ _ _ Ec), (nth_error_nth _ _ _ Hl) in K. subst ci. destruct Hcut as [_ HF].
  assert (nth_error (combine se c) i = Some (s, e, l)) as Hse by (now rewrite nth_error_combine, Es, Ec).
  pose proof (Forall2_nth_error _ _ _ _ _ _ HF Hl Hse) as (H1 & H2 & H3). cbv beta iota in H1, H2, H3.
  apply (f_equal zlen) in H3. rewrite subrange_zlen in H3 by lia. split; [|reflexivity]. f_equal. f_equal; lia.
Qed.
End Blocks.

(** out[slices] = b *)
Lemma setitem_spec {W} (a b b' : arr W) se (sls : list sel) :
  np_indices a sls = Some (map (fun '(s, e) => arange s e 1) se) -> Forall (fun '(s, e) => 0 <= s < e) se -> length se = length (shape a) ->
  broadcast b (map (fun '(s, e) => e - s) se) = Some b' ->
  exists r, setitem a sls b = Some r /\ shape r = shape a /\
    forall p, position (shape a) p -> (hits se p -> val r p = val b' (shifted_back se p)) /\ (~ hits se p -> val r p = val a p).
Proof.
  intros Hi Hse Hl Hb. unfold setitem. rewrite Hi.
  assert (map zlen (map (fun '(s, e) => arange s e 1) se) = map (fun '(s, e) => e - s) se) as ->.
  { rewrite map_map. apply map_ext_in. intros [s e] Hin. apply (proj1 (Forall_forall _ _) Hse) in Hin. rewrite zlen_arange1; lia. }
  rewrite Hb. eexists. split; [reflexivity|]. split; [reflexivity|]. intros p Hp. apply Forall2_len in Hp. cbn [val]. split; intros H.
  - rewrite locate_hit by assumption. reflexivity.
  - rewrite locate_miss; [reflexivity| |exact Hse|exact H]. lia.
Qed.
Lemma fold_writes {W T} (s : list Z) (E : list Z -> W) (step : option (arr W) -> T -> option (arr W)) (items : list T) (hit : T -> list Z -> Prop) :
  (forall t, In t items -> forall out, shape out = s -> exists out', step (Some out) t = Some out' /\ shape out' = s /\
     forall p, position s p -> (hit t p -> val out' p = E p) /\ (val out' p = E p \/ val out' p = val out p)) ->
  (forall p, position s p -> exists t, In t items /\ hit t p) ->
  forall out, shape out = s -> exists r, fold_left step items (Some out) = Some r /\ array_is r s E.
Proof.
  intros Hstep Hcov out Hout.
  assert (forall items' out done, (forall t, In t items' -> In t items) -> shape out = s -> (forall p, position s p -> (exists t, In t done /\ hit t p) -> val out p = E p) ->
     exists r, fold_left step items' (Some out) = Some r /\ shape r = s /\ forall p, position s p -> (exists t, In t (done ++ items') /\ hit t p) -> val r p = E p) as Hgen.
  { clear out Hout Hcov. induction items' as [|t items' IH]; intros out done Hsub Hout Hdone.
    - exists out. rewrite app_nil_r. auto.
    - destruct (Hstep t (Hsub t (or_introl eq_refl)) out Hout) as (out' & Ho & Hs & Hv). cbn [fold_left]. rewrite Ho.
      destruct (IH out' (done ++ [t])) as (r & Hr & Hrs & Hrv).
      + intros u Hu. apply Hsub. now right.
      + exact Hs.
      + intros p Hp (u & Hu & Hh). destruct (Hv p Hp) as [H1 H2]. apply in_app_or in Hu as [Hu|[<-|[]]].
        * destruct H2 as [H2|H2]; [exact H2|]. rewrite H2. apply Hdone; [exact Hp|eauto].
        * now apply H1.
      + exists r. split; [exact Hr|]. split; [exact Hrs|]. intros p Hp Hu. apply Hrv; [exact Hp|]. now rewrite <- app_assoc. }
  destruct (Hgen items out []) as (r & Hr & Hs & Hv); [auto|exact Hout|intros p _ (t & [] & _)|]. exists r. split; [exact Hr|]. split; [exact Hs|].
  intros p Hp. apply Hv; [exact Hp|]. exact (Hcov p Hp).
Qed.
