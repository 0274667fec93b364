(** The smoothed variable. *)
From Coq Require Import ZArith List Bool Lia Permutation.
From Verif Require Import TimeSearchModel SortSpec IndexModel IndexSpec IndexProofs ArrModel ArrProofs ViewModel ViewSpec ViewProofs ChunkProofs
     AxisModel AxisSpec AxisProofs VarOpsModel VarOpsSpec VarOpsProofs ReduceModel ReduceSpec LoopProofs RespondProofs NumModel
     StencilModel StencilSpec StencilProofs DiffProofs IntgrProofs ConcatProofs WindowModel WindowProofs LagProofs BlockProofs SmoothModel SmoothSpec SmoothProofs.
From Verif Require FlattenProofs.
Import ListNotations.
Open Scope Z_scope.

Lemma fold_writes2 {W C T} (s : list Z) (E : list Z -> W) (step : option (arr W) -> T -> option (arr W)) (R : C -> T -> Prop) (cs : list C) (ts : list T) (hit : C -> list Z -> Prop) :
  Forall2 R cs ts ->
  (forall c t, In c cs -> R c t -> forall out, shape out = s -> exists out', step (Some out) t = Some out' /\ shape out' = s /\
     forall p, position s p -> (hit c p -> val out' p = E p) /\ (val out' p = E p \/ val out' p = val out p)) ->
  (forall p, position s p -> exists c, In c cs /\ hit c p) ->
  forall out, shape out = s -> exists r, fold_left step ts (Some out) = Some r /\ array_is r s E.
Proof.
  intros HF Hstep Hcov out Hout.
  destruct (fold_writes s E (fun o ct => step o (snd ct)) (combine cs ts) (fun ct => hit (fst ct))) with (out := out) as (r & Hr & Ha).
  - intros [c t] Hin o Ho. cbn [fst snd]. apply (Hstep c t); [|clear -HF Hin|exact Ho].
    + now apply in_combine_l in Hin.
    + induction HF; cbn in Hin; [contradiction|]. destruct Hin as [E|Hin]; [injection E as <- <-; assumption|auto].
  - intros p Hp. destruct (Hcov p Hp) as (c & Hc & Hh). clear -HF Hc Hh. induction HF as [|c0 t0 cs ts H HF IH]; [destruct Hc|]. destruct Hc as [->|Hc].
    + exists (c, t0). split; [now left|exact Hh].
    + destruct (IH Hc) as (ct & Hin & Hx). exists ct. split; [now right|exact Hx].
  - exact Hout.
  - exists r. split; [|exact Ha]. rewrite <- Hr. clear -HF. generalize (Some out). induction HF as [|c t cs ts H HF IH]; intros o; [reflexivity|]. cbn. apply IH.
Qed.

Lemma shifted_back_set se p d x s e : length se = length p -> shifted_back (set_at se d (s, e)) (set_at p d x) = set_at (shifted_back se p) d (x - s).
Proof.
  revert p d. induction se as [|[a b] se IH]; intros [|y p] d Hl; try discriminate; [destruct d; reflexivity|]. destruct d as [|d]; [reflexivity|].
  cbn. f_equal. unfold shifted_back in IH. apply IH. now injection Hl.
Qed.
Lemma np_run_clip n m : 1 <= n -> 0 <= m <= n -> np_index (simplify (arange 0 n 1)) m = Some (arange 0 m 1).
Proof.
  intros Hn Hm. rewrite FlattenProofs.simplify_run by lia. cbn [np_index]. unfold eff_step, eff_start, eff_stop. cbn [s_start s_stop s_step]. change (1 =? 0) with false. change (0 <? 1) with true. cbv iota.
  unfold limit, from_end. destruct (Z.ltb_spec 0 0), (Z.ltb_spec n 0); try lia.
  replace (Z.max 0 (Z.min m 0)) with 0 by lia. replace (Z.max 0 (Z.min m n)) with m by lia. reflexivity.
Qed.
Lemma increasing_short l a b : increasing l -> (forall x, In x l -> a <= x <= b) -> a <= b + 1 -> zlen l <= b - a + 1.
Proof.
  intros H1 H2 H3. assert (length l <= length (arange a (b + 1) 1))%nat as K.
  { apply NoDup_incl_length; [now apply increasing_NoDup|]. intros x Hx. apply In_arange1. specialize (H2 x Hx). lia. }
  pose proof (zlen_arange1 a (b + 1) H3) as K2. unfold zlen in *. lia.
Qed.
Lemma increasing_arange1 a b : increasing (arange a b 1).
Proof. intros i j x y Hi Hj Hij. apply elem_arange1 in Hi, Hj. lia. Qed.

Lemma mirrored_extended N st sp K t lo hi : 3 <= K <= N -> 0 <= st <= sp -> sp < N ->
  lo = Z.max (st - K / 2) 0 -> hi = Z.min (sp + (K - K / 2)) N -> st - K / 2 <= t < sp + (K - K / 2) ->
  let ml := Z.max (K / 2 - st) 0 in let n := hi - lo in let r := t - (st - K / 2) in
  lo + (if r <? ml then ml - 1 - r else if ml + n <=? r then 2 * n - 1 - (r - ml) else r - ml) = mirrored N t.
Proof.
  intros HK H1 H2 -> -> Ht. cbv zeta. unfold mirrored. pose proof (Z.div_mod K 2 ltac:(lia)). pose proof (Z.mod_pos_bound K 2 ltac:(lia)).
  set (h := K / 2) in *.
  destruct (Z.ltb_spec (t - (st - h)) (Z.max (h - st) 0)), (Z.leb_spec (Z.max (h - st) 0 + (Z.min (sp + (K - h)) N - Z.max (st - h) 0)) (t - (st - h))), (Z.ltb_spec t 0), (Z.leb_spec N t); lia.
Qed.

Section View.
Context (env : axenv) (Henv : env_ok env) (junk : list Z -> num) (MAX : Z) (HMAX : 1 <= MAX) (direct : bool).
Notation var := (ViewModel.var axis num).

Lemma smooth_view_spec (x : var) D d a kernel L : responds env x D -> Forall good_axis (var_axes x) -> nth_error (var_axes x) d = Some a ->
  3 <= zlen kernel <= axis_len a ->
  (direct = true \/ Forall finite kernel /\ forall q, position (var_shape x) q -> finite (D q)) ->
  Forall2 selection (var_axes x) L ->
  exists r, smooth_view env junk MAX direct x d (axis_len a) kernel (view_of_inds (var_axes x) L) = Some r /\
    array_is r (map zlen L) (fun p => convolution (axis_len a) kernel (fun k => D (set_at (gather L p) d k)) (nth d (gather L p) 0)).
Proof.
  intros Hx Hgood Ha HK Hfin HL. set (N := axis_len a) in *. set (K := zlen kernel) in *.
  assert (d < length (var_axes x))%nat as Hd by (apply nth_error_Some; congruence).
  pose proof (Forall2_len _ _ _ HL) as HlL.
  destruct (nth_error L d) as [ind|] eqn:El; [|apply nth_error_None in El; lia].
  pose proof (Forall2_nth_error _ _ _ _ _ _ HL Ha El) as (Hi1 & Hi2 & Hi3).
  unfold smooth_view. cbn [vinds view_of_inds]. rewrite (nth_error_nth _ _ [] El).
  destruct (zmin_spec ind Hi1) as (st & -> & Hst1 & Hst2). destruct (zmax_spec ind Hi1) as (sp & -> & Hsp1 & Hsp2). cbn [bind]. cbv zeta.
  fold K. fold N in Hi2.
  assert (0 <= st < N) as Hst by (pose proof (proj1 (Forall_forall _ _) Hi2 st Hst1) as Q; cbv beta in Q; lia).
  assert (0 <= sp < N) as Hsp by (pose proof (proj1 (Forall_forall _ _) Hi2 sp Hsp1) as Q; cbv beta in Q; lia).
  assert (st <= sp) as Hss by (apply Hst2; exact Hsp1).
  pose proof (Z.div_mod K 2 ltac:(lia)) as HK2. pose proof (Z.mod_pos_bound K 2 ltac:(lia)) as HK3.
  assert ((K - 1) / 2 = K - K / 2 - 1) as HK1. { symmetry. apply (Z.div_unique (K - 1) 2 _ (K - 1 - 2 * (K - K / 2 - 1))); lia. }
  remember (Z.max (st - K / 2) 0) as lo eqn:Elo. remember (Z.min (sp + (K - K / 2)) N) as hi eqn:Ehi.
  assert (0 <= lo /\ lo <= st /\ sp < hi /\ hi <= N) as (Hlo & Hlo' & Hhi & Hhi') by lia.
  assert (in_range N (arange lo hi 1)) as Hrange by (apply in_range_arange; lia).
  fold (view_of_inds (var_axes x) L).
  rewrite (modify_any env junk (var_axes x) L d _ (arange lo hi 1) a (selection_range _ _ HL) Ha); [| |exact Hrange].
  2:{ cbn [expand]. destruct (Z.ltb_spec lo 0); [lia|]. destruct (Z.ltb_spec hi 0); [lia|]. reflexivity. }
  cbn [bind]. set (J := set_at L d (arange lo hi 1)). set (n := hi - lo). set (m := zlen ind).
  assert (zlen (arange lo hi 1) = n) as Hn by (apply zlen_arange1; lia).
  assert (selection a (arange lo hi 1)) as Hsel.
  { split; [|split; [exact Hrange|apply increasing_arange1]]. intros E. rewrite E in Hn. unfold zlen in Hn. cbn in Hn. unfold n in Hn. lia. }
  assert (Forall2 selection (var_axes x) J) as HJ by (apply (selection_set _ L d a); assumption).
  assert (length J = length L) as HlJ by apply length_set_at.
  assert (nth_error J d = Some (arange lo hi 1)) as HJd. { unfold J. rewrite nth_error_set_at, Nat.eqb_refl by lia. reflexivity. }
  assert (0 < m) as Hm. { unfold m. destruct ind; [congruence|]. rewrite zlen_cons. pose proof (zlen_nonneg ind). lia. }
  assert (m <= n) as Hmn. { pose proof (increasing_short ind st sp Hi3 ltac:(intros z Hz; split; [now apply Hst2|now apply Hsp2]) ltac:(lia)). fold m in H. unfold n. lia. }
  assert (NoDup [d]) as Hnd by (repeat constructor; intros []).
  assert (Forall (fun i => (i < length J)%nat) [d]) as Hpr by (repeat constructor; lia).
  assert (Forall (fun l => l <> []) J) as HJne. { apply Forall_forall. intros l Hl. apply (Forall2_In_r _ _ _ _ HJ) in Hl as (b & _ & H & _). exact H. }
  assert (Forall increasing J) as HJinc. { apply Forall_forall. intros l Hl. apply (Forall2_In_r _ _ _ _ HJ) in Hl as (b & _ & _ & _ & H). exact H. }
  destruct (loop_blocks env Henv junk MAX HMAX x D J [d] Hx Hgood HJ Hnd Hpr) as (its & Hits & HF). rewrite Hits. cbn [bind]. clear Hits.
  set (E := fun p => convolution N kernel (fun k => D (set_at (gather L p) d k)) (nth d (gather L p) 0)).
  set (s := map zlen L). assert (nth_error s d = Some m) as Hsd by (unfold s; now rewrite nth_error_map, El).
  assert (map zlen J = set_at s d n) as HsJ by (unfold J, s; rewrite map_set_at, Hn; reflexivity).
  apply (fold_writes2 s E _ (block_of D J) (loop_mem MAX J [d]) its (fun c p => forall se, LoopProofs.cut J se c -> hits se (set_at p d 0)) HF); [| |reflexivity].
  2:{ intros p Hp. apply (block_covers junk MAX HMAX J [d] HJne HJinc Hnd Hpr). rewrite HsJ. unfold position. apply Forall2_set_both; [exact Hp|unfold n; lia]. }
  clear HF its. intros c t Hc (se & r & Hcut & -> & Hr) out Hout.
  destruct (block_keeps junk MAX HMAX J [d] HJne Hnd Hpr c se d _ Hc Hcut (or_introl eq_refl) HJd) as [Hsed Hcd]. rewrite Hn in Hsed.
  destruct (cut_length _ _ _ Hcut) as [Hls Hlc].
  set (sc := map zlen c). assert (d < length sc)%nat as Hdc by (unfold sc; rewrite map_length; lia).
  assert (nth_error sc d = Some n) as Hscd by (unfold sc; rewrite nth_error_map, Hcd; cbn; congruence).
  set (F := fun p k => D (gather c (set_at p d k))).
  assert (steady_in d F) as HFs by (intros p i j; unfold F; now rewrite set_at_set).
  assert (has sc d r n F) as Hrh.
  { unfold has. rewrite (set_at_nth sc d n Hscd). eapply array_is_ext; [exact Hr|]. intros p Hp. cbv beta. unfold F. f_equal. f_equal. symmetry. apply set_at_nth.
    apply nth_error_nth'. apply Forall2_len in Hp. lia. }
  set (ml := Z.max (K / 2 - st) 0). set (mr := Z.max (sp + (K - K / 2)) N - N). set (at_ := map (fun i => i - (st - K / 2)) ind).
  assert (zlen at_ = m) as Hatl by (apply zlen_map).
  destruct (block_spec sc d Hdc direct junk r kernel (sp - st + K) ml mr n F at_ Hrh HFs) as (b & Eb & Hb).
  { unfold ml, n. lia. }
  { unfold mr, n. lia. }
  { unfold ml, mr, n. lia. }
  { intros i j Hi Hj. apply in_map_iff in Hi as (z & <- & Hz). pose proof (Hst2 z Hz). pose proof (Hsp2 z Hz). fold K in Hj |- *. rewrite HK1. lia. }
  { fold K. lia. }
  { apply Forall_forall. intros i Hi. apply in_map_iff in Hi as (z & <- & Hz). pose proof (Hst2 z Hz). pose proof (Hsp2 z Hz). lia. }
  { destruct Hfin as [Hdir|[H1 H2]]; [now left|right]. split; [|split].
    - apply forallb_forall. intros v Hv. apply (proj1 (Forall_forall _ _) H1) in Hv as [q ->]. reflexivity.
    - exists n. split; [exact Hscd|unfold n; lia].
    - intros p k Hp Hk. unfold F. destruct (H2 (gather c (set_at p d k))) as [q ->]; [|reflexivity].
      apply gather_position.
      + unfold var_shape. apply (proj2 (Forall2_map_l _ _ _ _)). apply Forall2_intro_nth; [lia|]. intros i ai ci Hai Hci.
        destruct (nth_error J i) as [l|] eqn:EJ; [|apply nth_error_None in EJ; assert (i < length (var_axes x))%nat by (apply nth_error_Some; congruence); lia].
        destruct (Forall2_nth_error _ _ _ _ _ _ HJ Hai EJ) as (_ & Q & _). apply (subr_range _ l); [exact Q|].
        assert (exists s0 e0, nth_error se i = Some (s0, e0)) as (s0 & e0 & Ese). { destruct (nth_error se i) as [[s0 e0]|] eqn:Ese; [eauto|]. apply nth_error_None in Ese. assert (i < length J)%nat by (apply nth_error_Some; congruence). lia. }
        destruct Hcut as [_ HFc]. assert (nth_error (combine se c) i = Some (s0, e0, ci)) as Hcomb by (now rewrite nth_error_combine, Ese, Hci).
        pose proof (Forall2_nth_error _ _ _ _ _ _ HFc EJ Hcomb) as (Q1 & Q2 & Q3). cbv beta iota in Q1, Q2, Q3. exists s0, e0. auto.
      + apply (position_set _ p d n k Hp Hscd Hk). }
  rewrite Hatl in Hb. cbn [bind]. fold ml mr at_. rewrite Eb. cbn [bind].
  set (se' := set_at se d (0, m)).
  assert (Forall2 (fun '(s0, e0) l => 0 <= s0 < e0 /\ e0 <= l) se (set_at s d n)) as Hseb.
  { rewrite <- HsJ. apply Forall2_intro_nth; [rewrite map_length; exact Hls|]. intros i [s0 e0] l Hsi Hl. rewrite nth_error_map in Hl. destruct (nth_error J i) as [Ji|] eqn:EJ; [|discriminate].
    injection Hl as <-. destruct (nth_error c i) as [ci|] eqn:Eci; [|apply nth_error_None in Eci; assert (i < length J)%nat by (apply nth_error_Some; congruence); lia].
    destruct Hcut as [_ HFc]. assert (nth_error (combine se c) i = Some (s0, e0, ci)) as Hcomb by (now rewrite nth_error_combine, Hsi, Eci).
    pose proof (Forall2_nth_error _ _ _ _ _ _ HFc EJ Hcomb) as (Q1 & Q2 & Q3). cbv beta iota in Q1, Q2, Q3. auto. }
  assert (map (fun '(s0, e0) => e0 - s0) se = sc) as Hsc.
  { unfold sc. apply nth_error_ext'. intros i. rewrite !nth_error_map. destruct (nth_error se i) as [[s0 e0]|] eqn:Esi, (nth_error c i) as [ci|] eqn:Eci; cbn [option_map].
    - destruct (nth_error J i) as [Ji|] eqn:EJ; [|apply nth_error_None in EJ; assert (i < length se)%nat by (apply nth_error_Some; congruence); lia].
      destruct Hcut as [_ HFc]. assert (nth_error (combine se c) i = Some (s0, e0, ci)) as Hcomb by (now rewrite nth_error_combine, Esi, Eci).
      pose proof (Forall2_nth_error _ _ _ _ _ _ HFc EJ Hcomb) as (Q1 & Q2 & Q3). cbv beta iota in Q1, Q2, Q3. rewrite Q3, subrange_zlen by lia. reflexivity.
    - apply nth_error_None in Eci. assert (i < length se)%nat by (apply nth_error_Some; congruence). lia.
    - apply nth_error_None in Esi. assert (i < length c)%nat by (apply nth_error_Some; congruence). lia.
    - reflexivity. }
  assert (length se' = length L) as Hls' by (unfold se'; rewrite length_set_at; lia).
  assert (Forall2 (fun '(s0, e0) l => 0 <= s0 < e0 /\ e0 <= l) se' s) as Hseb'.
  { unfold se'. rewrite <- (set_at_nth s d m Hsd), <- (set_at_set s d n m). apply Forall2_set_both; [exact Hseb|lia]. }
  assert (map (fun '(s0, e0) => e0 - s0) se' = set_at sc d m) as Hsc'. { unfold se'. rewrite map_set_at, Hsc. f_equal. lia. }
  destruct (broadcast_same b (map (fun '(s0, e0) => e0 - s0) se')) as (b' & Eb' & Sb' & Vb'). { rewrite Hsc'. apply Hb. }
  destruct (setitem_spec out b b' se' (map (fun '(s0, e0) => simplify (arange s0 e0 1)) se)) as (out' & Eo & So & Vo).
  { unfold np_indices. rewrite map_length, Hout. unfold s at 1. rewrite map_length, Hls, HlJ, Nat.eqb_refl.
    assert (filter is_list (map (fun '(s0, e0) => simplify (arange s0 e0 1)) se) = []) as ->.
    { clear -Hseb. induction Hseb as [|[s0 e0] l se ls [H _] Hse IH]; [reflexivity|]. cbn [map filter]. rewrite simplify_arange_slice by lia. exact IH. }
    cbn [length Nat.leb andb]. apply sequence_Forall2. apply Forall2_intro_nth.
    - rewrite combine_length, !map_length. unfold s. rewrite map_length. lia.
    - intros i [sl l] y Hi Hy. rewrite nth_error_combine, nth_error_map in Hi. destruct (nth_error se i) as [[s0 e0]|] eqn:Esi; [|discriminate]. cbn [option_map] in Hi.
      destruct (nth_error s i) as [l'|] eqn:Esl; [|discriminate]. injection Hi as <- <-. rewrite nth_error_map in Hy. unfold se' in Hy. rewrite nth_error_set_at in Hy by lia.
      destruct (Nat.eqb_spec d i) as [<-|Hne].
      + rewrite Hsed in Esi. injection Esi as <- <-. rewrite Hsd in Esl. injection Esl as <-. cbn [option_map] in Hy. injection Hy as <-. apply np_run_clip; lia.
      + rewrite Esi in Hy. cbn [option_map] in Hy. injection Hy as <-. apply np_index_simplify.
        assert (nth_error (set_at s d n) i = Some l') as Q. { rewrite nth_error_set_at by (apply nth_error_Some; congruence). destruct (Nat.eqb_spec d i); [contradiction|exact Esl]. }
        pose proof (Forall2_nth_error _ _ _ _ _ _ Hseb Esi Q) as (Q1 & Q2). apply in_range_arange; lia. }
  { apply Forall_forall. intros [s0 e0] Hin. apply In_nth_error in Hin as [i Hi]. destruct (nth_error s i) as [l'|] eqn:Esl.
    - pose proof (Forall2_nth_error _ _ _ _ _ _ Hseb' Hi Esl) as (Q1 & Q2). exact Q1.
    - apply nth_error_None in Esl. unfold s in Esl. rewrite map_length in Esl. assert (i < length se')%nat by (apply nth_error_Some; congruence). lia. }
  { rewrite Hout. unfold s. rewrite map_length. exact Hls'. }
  { exact Eb'. }
  exists out'. split; [exact Eo|]. split; [congruence|]. rewrite Hout in Vo. intros p Hp. destruct (Vo p Hp) as [V1 V2].
  assert (length p = length L) as Hlp by (apply Forall2_len in Hp; unfold s in Hp; rewrite map_length in Hp; lia).
  pose proof (position_at _ _ _ _ Hp Hsd) as Hpd.
  assert (set_at se d (0, n) = se) as Hses by (now apply set_at_nth).
  assert (hits se (set_at p d 0) <-> hits se' p) as Hh.
  { split; intros H.
    - unfold se'. rewrite <- (set_at_nth p d (nth d p 0)) by (apply nth_error_nth'; lia). rewrite <- (set_at_set p d 0 (nth d p 0)). apply Forall2_set_both; [exact H|lia].
    - rewrite <- Hses. rewrite <- (set_at_set se d (0, m) (0, n)). apply Forall2_set_both; [exact H|lia]. }
  assert (hits se' p -> val out' p = E p) as HE.
  { intros H. rewrite (V1 H).
    assert (position (set_at s d n) (set_at p d 0)) as Hp0 by (unfold position; apply Forall2_set_both; [exact Hp|lia]).
    destruct (cut_hit J se c (repeat false (length J)) (set_at p d 0) Hcut) as [Q1 Q2].
    { rewrite dropped_none by reflexivity. rewrite HsJ. exact Hp0. }
    { rewrite dropped_none by lia. now apply Hh. }
    rewrite !dropped_none in Q1, Q2 by lia.
    assert (set_at (shifted_back se' p) d 0 = shifted_back se (set_at p d 0)) as Hsb.
    { rewrite <- Hses. rewrite <- (set_at_set se d (0, m) (0, n)). fold se'. rewrite shifted_back_set by lia. reflexivity. }
    assert (nth d (shifted_back se' p) 0 = nth d p 0) as Hnd2.
    { rewrite <- (set_at_nth p d (nth d p 0)) at 1 by (apply nth_error_nth'; lia). unfold se'. rewrite shifted_back_set by lia. rewrite nth_set_same; [lia|]. unfold shifted_back. rewrite map_length, combine_length. lia. }
    assert (position (set_at sc d m) (shifted_back se' p)) as Hsp'.
    { rewrite <- (set_at_nth (shifted_back se' p) d (nth d p 0)).
      - rewrite <- (set_at_set (shifted_back se' p) d 0 (nth d p 0)), Hsb. unfold position. apply Forall2_set_both; [exact Q1|exact Hpd].
      - rewrite <- Hnd2. apply nth_error_nth'. unfold shifted_back. rewrite map_length, combine_length. lia. }
    rewrite Vb' by (rewrite Hsc'; exact Hsp'). destruct Hb as [_ Hb]. rewrite Hb by exact Hsp'. rewrite Hnd2.
    unfold E, convolution. fold K. f_equal. apply map_ext_in. intros j Hj. apply In_arange1 in Hj. f_equal.
    rewrite (nth_gather' L p d ind Hlp El). unfold at_. rewrite znth_map by exact Hpd.
    set (i := znth ind (nth d p 0)). assert (In i ind) as Hii by (eapply elem_In, elem_znth, Hpd). pose proof (Hst2 i Hii). pose proof (Hsp2 i Hii).
    unfold extended, F. f_equal. rewrite gather_set_p, (nth_error_nth _ _ [] Hcd).
    rewrite HK1.
    replace (i - (st - K / 2) + (K - K / 2 - 1) - j) with (i + (K - K / 2 - 1) - j - (st - K / 2)) by lia.
    rewrite <- (mirrored_extended N st sp K (i + (K - K / 2 - 1) - j) lo hi HK ltac:(lia) ltac:(lia) Elo Ehi ltac:(lia)). cbv zeta. fold ml. fold n.
    set (r0 := i + (K - K / 2 - 1) - j - (st - K / 2)).
    assert (0 <= (if r0 <? ml then ml - 1 - r0 else if ml + n <=? r0 then 2 * n - 1 - (r0 - ml) else r0 - ml) < n) as Hb0.
    { unfold r0, ml, n. destruct (Z.ltb_spec (i + (K - K / 2 - 1) - j - (st - K / 2)) (Z.max (K / 2 - st) 0)), (Z.leb_spec (Z.max (K / 2 - st) 0 + (hi - lo)) (i + (K - K / 2 - 1) - j - (st - K / 2))); lia. }
    rewrite znth_arange1 by exact Hb0.
    transitivity (set_at (gather c (shifted_back se (set_at p d 0))) d (lo + (if r0 <? ml then ml - 1 - r0 else if ml + n <=? r0 then 2 * n - 1 - (r0 - ml) else r0 - ml))).
    - rewrite <- Hsb, gather_set_p, set_at_set. reflexivity.
    - rewrite Q2, dropped_none by reflexivity. unfold J. rewrite gather_set, gather_set_p, !set_at_set. reflexivity. }
  split; [intros H; apply HE, Hh, H, Hcut|]. destruct (hits_dec se' p) as [H|H]; [left; now apply HE|right; now apply V2].
Qed.
End View.
