(** The axes of correlations and regressions. *)
From Coq Require Import ZArith List Bool Lia QArith_base.
From Verif Require Import SortSpec IndexModel IndexSpec IndexProofs ArrModel ArrProofs ViewModel ViewSpec ViewProofs
     AxisModel AxisSpec AxisProofs VarOpsModel VarOpsSpec VarOpsProofs NumModel ReduceModel ReduceSpec UfuncModel UfuncSpec UfuncProofs UfuncView CompositeProofs RegressModel RegressSpec.
Import ListNotations.
Open Scope Z_scope.
Open Scope list_scope.

Definition pick_at (src : list axis) (l : list nat) : list axis := flat_map (fun i => match nth_error src i with Some a => [a] | None => [] end) l.
Lemma pick_at_nth src l : Forall (fun i => (i < length src)%nat) l -> Forall2 (fun i b => nth_error src i = Some b) l (pick_at src l).
Proof.
  induction 1 as [|i l Hi _ IH]; [constructor|]. unfold pick_at. cbn [flat_map]. destruct (nth_error src i) as [a|] eqn:E; [|apply nth_error_None in E; lia].
  cbn [app]. constructor; [exact E|exact IH].
Qed.
Lemma pick_at_app src l l' : pick_at src (l ++ l') = pick_at src l ++ pick_at src l'.
Proof. apply flat_map_app. Qed.
Lemma In_pick_at src l b : In b (pick_at src l) <-> exists i, In i l /\ nth_error src i = Some b.
Proof.
  unfold pick_at. rewrite in_flat_map. split.
  - intros (i & Hi & H). exists i. split; [exact Hi|]. destruct (nth_error src i); [|destruct H]. destruct H as [<-|[]]. reflexivity.
  - intros (i & Hi & H). exists i. split; [exact Hi|]. rewrite H. now left.
Qed.
Lemma separate_pick src l : separate src -> NoDup l -> Forall (fun i => (i < length src)%nat) l -> separate (pick_at src l).
Proof.
  intros Hs N Hl i j a b Hi Hj Hij. pose proof (pick_at_nth src l Hl) as HF.
  assert (forall k c, nth_error (pick_at src l) k = Some c -> exists m, nth_error l k = Some m /\ nth_error src m = Some c) as K.
  { intros k c Hk. destruct (nth_error l k) as [m|] eqn:E.
    - exists m. split; [reflexivity|]. exact (Forall2_nth_error _ _ _ k m c HF E Hk).
    - exfalso. apply nth_error_None in E. pose proof (Forall2_len _ _ _ HF). assert (k < length (pick_at src l))%nat by (apply nth_error_Some; congruence). lia. }
  destruct (K i a Hi) as (m & Hm & Ha). destruct (K j b Hj) as (n & Hn & Hb). apply (Hs m n a b Ha Hb). intros ->.
  apply Hij. apply (proj1 (NoDup_nth_error l) N); [apply nth_error_Some; congruence|congruence].
Qed.

Lemma NoDup_app' {A} (l r : list A) : NoDup l -> NoDup r -> (forall i, In i l -> In i r -> False) -> NoDup (l ++ r).
Proof.
  induction 1 as [|x l Hx N IH]; intros Nr H; [exact Nr|]. cbn. constructor.
  - intros K. apply in_app_iff in K as [K|K]; [auto|]. apply (H x); [now left|exact K].
  - apply IH; [exact Nr|]. intros i Hi. apply H. now right.
Qed.
Section Axes.
Context (env : axenv) (Henv : env_ok env) (A B src : list axis)
  (Htight : Forall tight_axis (A ++ B)) (Hcomp : forall a b, In a (A ++ B) -> In b (A ++ B) -> compatible a b)
  (Hincl : incl src (A ++ B)) (Hsep : separate src) (Hcov : covers_axes (A ++ B) src).

Lemma maps_iff s b : In s (A ++ B) -> In b src -> (match axis_map_to env s b with Some _ => true | None => false end) = true <-> exists l, restricts s l b.
Proof.
  intros Hs Hb. split.
  - intros H. destruct (Hcomp s b Hs (Hincl _ Hb)) as [[U _]|[Hr|(l & Hr)]]; [rewrite (unrelated_map env s b U) in H; discriminate|exact Hr|].
    destruct (Hcov s Hs) as (o & l' & Ho & Hr'). apply In_nth_error in Ho as (i & Ho). apply In_nth_error in Hb as (j & Hb).
    destruct (Nat.eq_dec i j) as [->|Hij]; [assert (o = b) as <- by congruence; now exists l'|]. exfalso.
    apply (restricts_related env Henv b l s Hr). pose proof (Hsep j i b o Hb Ho (fun E => Hij (eq_sym E))) as U.
    destruct Hr' as (_ & _ & _ & Hs'). now apply (sliced_unrelated s l' o b Hs').
  - intros (l & G & Hl & _ & Hs'). now rewrite (sliced_map env Henv s l b G Hl Hs').
Qed.
Lemma maps_onto_iff L b : incl L (A ++ B) -> In b src -> maps_onto env L b = true <-> exists a l, In a L /\ restricts a l b.
Proof.
  intros HL Hb. unfold maps_onto. rewrite existsb_exists. split.
  - intros (a & Ha & H). apply maps_iff in H as (l & H); [|now apply HL|exact Hb]. eauto.
  - intros (a & l & Ha & H). exists a. split; [exact Ha|]. apply maps_iff; [now apply HL|exact Hb|eauto].
Qed.
Definition of_both (b : axis) : Prop := (exists a l, In a A /\ restricts a l b) /\ (exists a l, In a B /\ restricts a l b).

Lemma indexed i b : nth_error src i = Some b <-> In (i, b) (combine (seq 0 (length src)) src).
Proof.
  clear Htight Hcomp Hincl Hsep Hcov Henv.
  split.
  - intros H. apply nth_error_In with i. assert (i < length src)%nat by (apply nth_error_Some; congruence).
    rewrite nth_error_combine, nth_error_seq, H. destruct (Nat.ltb_spec i (length src)); [reflexivity|lia].
  - intros H. apply In_nth_error in H as (j & H). rewrite nth_error_combine in H. destruct (nth_error (seq 0 _) j) as [k|] eqn:E; [|discriminate].
    destruct (nth_error src j) as [c|] eqn:E2; [|discriminate]. injection H as <- <-. rewrite nth_error_seq in E. destruct (Nat.ltb j (length src)); [|discriminate]. injection E as <-. exact E2.
Qed.
Lemma xor_false b : In b src -> xorb (maps_onto env A b) (maps_onto env B b) = false <-> of_both b.
Proof.
  intros Hb. pose proof (maps_onto_iff A b (fun x H => in_or_app _ _ _ (or_introl H)) Hb) as HA. pose proof (maps_onto_iff B b (fun x H => in_or_app _ _ _ (or_intror H)) Hb) as HB.
  assert (maps_onto env A b = true \/ maps_onto env B b = true) as Hone.
  { assert (restricts b (arange 0 (axis_len b) 1) b) as R by (apply restricts_refl; exact (proj1 (proj1 (Forall_forall _ _) Htight b (Hincl b Hb)))).
    pose proof (Hincl b Hb) as Hin. apply in_app_iff in Hin as [Hin|Hin]; [left; apply HA|right; apply HB]; eauto. }
  unfold of_both. rewrite <- HA, <- HB. destruct (maps_onto env A b), (maps_onto env B b); cbn; intuition discriminate.
Qed.
Definition parts : list nat * list nat := shared_axes env src A B.
Lemma in_shared i : In i (snd parts) <-> exists b, nth_error src i = Some b /\ of_both b.
Proof.
  unfold parts, shared_axes. cbn [snd]. rewrite in_map_iff. split.
  - intros ([j b] & E & H). cbn in E. subst j. apply filter_In in H as [H1 H2]. apply indexed in H1. exists b. split; [exact H1|]. apply xor_false; [eapply nth_error_In, H1|]. now apply negb_true_iff in H2.
  - intros (b & H1 & H2). exists (i, b). split; [reflexivity|]. apply filter_In. split; [now apply indexed|]. apply negb_true_iff. apply xor_false; [eapply nth_error_In, H1|exact H2].
Qed.
Lemma in_parts i : (i < length src)%nat <-> In i (fst parts) \/ In i (snd parts).
Proof.
  clear Htight Hcomp Hincl Hsep Hcov Henv.
  unfold parts, shared_axes. cbn [fst snd]. rewrite !in_map_iff. split.
  - intros H. destruct (nth_error src i) as [b|] eqn:E; [|apply nth_error_None in E; lia]. apply indexed in E.
    destruct (xorb (maps_onto env A b) (maps_onto env B b)) eqn:Ex; [left|right]; exists (i, b); (split; [reflexivity|]); apply filter_In; (split; [exact E|]); now rewrite ?Ex.
  - intros [([j b] & E & H)|([j b] & E & H)]; cbn in E; subst j; apply filter_In in H as [H _]; apply indexed in H; apply nth_error_Some; congruence.
Qed.
Lemma NoDup_filter_fst {C} (f : nat * C -> bool) l : NoDup (map fst l) -> NoDup (map fst (filter f l)).
Proof.
  clear Htight Hcomp Hincl Hsep Hcov Henv.
  induction l as [|[i c] l IH]; [constructor|]. cbn [map fst filter]. intros N. inversion N as [|? ? N1 N2]; subst. destruct (f (i, c)); [|auto]. cbn [map fst]. constructor; [|auto].
  intros H. apply N1. apply in_map_iff in H as (x & E & H). apply filter_In in H as [H _]. rewrite <- E. now apply in_map.
Qed.
Lemma parts_NoDup : NoDup (fst parts) /\ NoDup (snd parts) /\ (forall i, In i (fst parts) -> In i (snd parts) -> False).
Proof.
  clear Htight Hcomp Hincl Hsep Hcov Henv.
  assert (NoDup (map fst (combine (seq 0 (length src)) src))) as N by (rewrite map_fst_combine; [apply seq_NoDup|now rewrite seq_length]).
  split; [now apply NoDup_filter_fst|]. split; [now apply NoDup_filter_fst|]. unfold parts, shared_axes. cbn [fst snd]. intros i H1 H2.
  apply in_map_iff in H1 as ([j b] & E1 & H1). apply in_map_iff in H2 as ([k c] & E2 & H2). cbn in E1, E2. subst j k.
  apply filter_In in H1 as [H1 X1]. apply filter_In in H2 as [H2 X2]. apply indexed in H1, H2. assert (b = c) as <- by congruence. rewrite X1 in X2. discriminate.
Qed.
End Axes.

Section Pair.
Context (env : axenv) (Henv : env_ok env) (X Y : var axis num) (HX : separate (var_axes X)) (HY : separate (var_axes Y)) (Hfit : fitting X Y).
Notation All := (var_axes X ++ var_axes Y).

Lemma mem_nat_In i l : mem_nat i l = true <-> In i l.
Proof. unfold mem_nat. rewrite existsb_exists. split; [intros (j & H & E); apply Nat.eqb_eq in E; now subst|intros H; exists i; split; [exact H|apply Nat.eqb_refl]]. Qed.

Lemma pair_axes_spec axes : (forall l, axes = Some l -> NoDup l) ->
  match pair_axes env X Y axes with
  | Some (outer, over) => splits env X Y axes outer over /\ incl (outer ++ over) All /\ covers_axes All (outer ++ over)
  | None => exists l src, axes = Some l /\ combine_axes env [var_axes X; var_axes Y] = Some src /\
                exists i, In i l /\ forall b, nth_error src i = Some b -> ~ (along_dimension X b /\ along_dimension Y b)
  end.
Proof.
  intros Hnd. destruct Hfit as [Hf1 Hf2].
  assert (Forall tight_axis All) as Ht by (apply Forall_forall; intros a Ha; now apply Hf1).
  destruct (combine_axes_spec env Henv All Ht Hf2 [var_axes X; var_axes Y]) as (src & Esrc & Hincl & Hsep & Hcov).
  { cbn. now rewrite app_nil_r. } { discriminate. } { constructor; [exact HX|constructor; [exact HY|constructor]]. }
  unfold pair_axes. rewrite Esrc. change (shared_axes env src (var_axes X) (var_axes Y)) with (parts env (var_axes X) (var_axes Y) src).
  destruct (parts_NoDup env (var_axes X) (var_axes Y) src) as (N1 & N2 & N3).
  pose proof (fun i => in_parts env (var_axes X) (var_axes Y) src i) as Hall.
  pose proof (fun i => in_shared env Henv (var_axes X) (var_axes Y) src Ht Hf2 Hincl Hsep Hcov i) as Hsh.
  destruct (parts env (var_axes X) (var_axes Y) src) as [oi ri]. cbn [fst snd] in *.
  assert (forall l, Forall (fun i => (i < length src)%nat) l -> forall b, In b (pick_at src l) -> In b src) as Hin.
  { intros l _ b Hb. apply In_pick_at in Hb as (i & _ & Hb). eapply nth_error_In, Hb. }
  assert (forall o r, NoDup o -> NoDup r -> (forall i, In i o -> In i r -> False) -> (forall i, (i < length src)%nat <-> In i o \/ In i r) -> (forall i, In i r -> In i ri) ->
    separate (pick_at src o ++ pick_at src r) /\ (forall b, In b src <-> In b (pick_at src o) \/ In b (pick_at src r)) /\
    (forall b, In b (pick_at src r) -> along_dimension X b /\ along_dimension Y b) /\ incl (pick_at src o ++ pick_at src r) All /\ covers_axes All (pick_at src o ++ pick_at src r)) as Hgen.
  { intros o r No Nr Nor Hcase Hr. 
    assert (forall b, In b src <-> In b (pick_at src o) \/ In b (pick_at src r)) as Hmem.
    { intros b. rewrite !In_pick_at. split.
      - intros Hb. apply In_nth_error in Hb as (i & Hb). assert (i < length src)%nat as Hi by (apply nth_error_Some; congruence). apply Hcase in Hi as [Hi|Hi]; [left|right]; eauto.
      - intros [(i & _ & Hb)|(i & _ & Hb)]; eapply nth_error_In, Hb. }
    rewrite <- pick_at_app. split; [|split; [exact Hmem|split; [|split]]].
    - apply separate_pick; [exact Hsep| |].
      + apply NoDup_app'; assumption.
      + apply Forall_forall. intros i Hi. apply Hcase. now apply in_app_iff.
    - intros b Hb. apply In_pick_at in Hb as (i & Hi & Hb). apply Hr, Hsh in Hi as (b' & Hb' & Hboth). assert (b' = b) as -> by congruence. exact Hboth.
    - rewrite pick_at_app. intros b Hb. apply Hincl, Hmem. now apply in_app_iff.
    - intros s Hs. destruct (Hcov s Hs) as (c & l & Hc & Hr'). exists c, l. split; [|exact Hr']. rewrite pick_at_app. apply in_app_iff. now apply Hmem. }
  destruct axes as [l|].
  - change (flat_map _ (oi ++ filter (fun r => negb (mem_nat r l)) ri)) with (pick_at src (oi ++ filter (fun r => negb (mem_nat r l)) ri)). change (flat_map _ l) with (pick_at src l).
    destruct (forallb (fun i => mem_nat i ri) l) eqn:Ef.
    + rewrite forallb_forall in Ef. assert (forall i, In i l -> In i ri) as Hl by (intros i Hi; now apply mem_nat_In, Ef).
      assert (forall r, In r (filter (fun r => negb (mem_nat r l)) ri) <-> In r ri /\ ~ In r l) as Hfil.
      { intros r. rewrite filter_In, negb_true_iff. rewrite <- (mem_nat_In r l). destruct (mem_nat r l); intuition congruence. }
      destruct (Hgen (oi ++ filter (fun r => negb (mem_nat r l)) ri) l) as (G1 & G2 & G3 & G4 & G5).
      * apply NoDup_app'; [exact N1|now apply NoDup_filter|]. intros i Hi Hj. apply Hfil in Hj as [Hj _]. eauto.
      * now apply Hnd.
      * intros i Hi Hj. apply in_app_iff in Hi as [Hi|Hi]; [eauto|]. apply Hfil in Hi as [_ Hi]. auto.
      * intros i. rewrite Hall, in_app_iff, Hfil. split; [intros [H|H]; [tauto|]|intros [[H|H]|H]; [tauto|tauto|auto]]. destruct (in_dec Nat.eq_dec i l); tauto.
      * exact Hl.
      * split; [|split; [exact G4|exact G5]]. exists src. split; [exact Esrc|]. split; [exact G1|]. split; [exact G2|]. split; [exact G3|].
        apply pick_at_nth. apply Forall_forall. intros i Hi. apply Hall. right. auto.
    + exists l, src. split; [reflexivity|]. split; [reflexivity|]. apply not_true_iff_false in Ef. 
      assert (exists i, In i l /\ mem_nat i ri = false) as (i & Hi & Hm).
      { clear -Ef. induction l as [|j l IH]; [exfalso; now apply Ef|]. cbn [forallb] in Ef. destruct (mem_nat j ri) eqn:E; [|exists j; split; [now left|exact E]].
        destruct IH as (i & Hi & H); [exact Ef|]. exists i. split; [now right|exact H]. }
      exists i. split; [exact Hi|]. intros b Hb Hboth. assert (In i ri) as Hc by (apply Hsh; exists b; split; [exact Hb|exact Hboth]). apply mem_nat_In in Hc. congruence.
  - change (flat_map _ oi) with (pick_at src oi). change (flat_map _ ri) with (pick_at src ri).
    destruct (Hgen oi ri N1 N2 N3 Hall (fun i H => H)) as (G1 & G2 & G3 & G4 & G5). split; [|split; [exact G4|exact G5]].
    exists src. split; [exact Esrc|]. split; [exact G1|]. split; [exact G2|]. split; [exact G3|].
    intros b Hb Hx Hy. apply In_nth_error in Hb as (i & Hb). apply In_pick_at. exists i. split; [|exact Hb]. apply Hsh. exists b. split; [exact Hb|split; assumption].
Qed.
End Pair.
