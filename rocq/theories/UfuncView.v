(** Combining the axes of several variables, and reading the result of an element-wise operation. *)
From Coq Require Import ZArith List Bool Lia QArith_base.
From Verif Require Import SortSpec IndexModel IndexSpec IndexProofs ArrModel ArrProofs ViewModel ViewSpec ViewProofs
     AxisModel AxisSpec AxisProofs VarOpsModel VarOpsSpec VarOpsProofs ReduceModel ReduceSpec LoopProofs RespondProofs UfuncModel UfuncSpec UfuncProofs.
Import ListNotations.
Open Scope Z_scope.

(** *** separate lists *)
Lemma separate_change l1 o l2 c : separate (l1 ++ o :: l2) ->
  (forall b, unrelated o b -> unrelated c b) -> (forall b, unrelated b o -> unrelated b c) -> separate (l1 ++ c :: l2).
Proof.
  intros H H1 H2. assert (forall i, i <> length l1 -> nth_error (l1 ++ c :: l2) i = nth_error (l1 ++ o :: l2) i) as He.
  { intros i Hi. destruct (Nat.lt_ge_cases i (length l1)) as [L|L]; [now rewrite !nth_error_app1|].
    rewrite !nth_error_app2 by exact L. destruct (i - length l1)%nat eqn:E; [lia|reflexivity]. }
  assert (forall d, nth_error (l1 ++ d :: l2) (length l1) = Some d) as Hm by (intros d; rewrite nth_error_app2, Nat.sub_diag by lia; reflexivity).
  intros i j a b Ha Hb Hne. destruct (Nat.eq_dec i (length l1)) as [->|Hi].
  - rewrite Hm in Ha. injection Ha as <-. rewrite He in Hb by congruence. apply H1. eapply (H (length l1) j); [apply Hm|exact Hb|exact Hne].
  - rewrite He in Ha by exact Hi. destruct (Nat.eq_dec j (length l1)) as [->|Hj].
    + rewrite Hm in Hb. injection Hb as <-. apply H2. eapply (H i (length l1)); [exact Ha|apply Hm|exact Hne].
    + rewrite He in Hb by exact Hj. eapply H; eassumption.
Qed.
Lemma separate_snoc l a : separate l -> (forall b, In b l -> unrelated a b /\ unrelated b a) -> separate (l ++ [a]).
Proof.
  intros H Ha i j b c Hb Hc Hne.
  assert (forall k d, nth_error (l ++ [a]) k = Some d -> nth_error l k = Some d \/ k = length l /\ d = a) as Hk.
  { intros k d E. destruct (Nat.lt_ge_cases k (length l)) as [L|L]; [rewrite nth_error_app1 in E by exact L; now left|right].
    rewrite nth_error_app2 in E by exact L. destruct (k - length l)%nat as [|m] eqn:Em; [injection E as <-; split; [lia|reflexivity]|destruct m; discriminate]. }
  destruct (Hk _ _ Hb) as [Hb'|[-> ->]], (Hk _ _ Hc) as [Hc'|[-> ->]].
  - eapply H; eassumption.
  - apply Ha. eapply nth_error_In, Hb'.
  - apply Ha. eapply nth_error_In, Hc'.
  - congruence.
Qed.

Section Env.
Context (env : axenv) (Henv : env_ok env).
Context (All : list axis) (Htight : Forall tight_axis All) (Hcomp : forall a b, In a All -> In b All -> compatible a b).

Lemma tight a : In a All -> tight_axis a.
Proof. intros H. rewrite Forall_forall in Htight. now apply Htight. Qed.

(** *** merging *)
Lemma merge_axis_cases a out : In a All -> incl out All -> exists out', merge_axis env a out = Some out' /\
  ((out' = out ++ [a] /\ forall b, In b out -> unrelated a b /\ unrelated b a) \/
   exists l1 o l2 c, out = l1 ++ o :: l2 /\ out' = l1 ++ c :: l2 /\ (c = a \/ c = o) /\ both_to a o c).
Proof.
  intros Ha. induction out as [|o out IH]; intros Hi.
  { exists [a]. split; [reflexivity|]. left. split; [reflexivity|intros b []]. }
  assert (In o All) as Ho by (apply Hi; now left). cbn [merge_axis]. destruct (Hcomp a o Ha Ho) as [[H1 H2]|Hr].
  - rewrite (can_map_unrelated env a o H1 H2). destruct IH as (out' & E & C); [intros y Hy; apply Hi; now right|]. rewrite E.
    eexists. split; [reflexivity|]. destruct C as [[-> C]|(l1 & o' & l2 & c & -> & -> & C)].
    + left. split; [reflexivity|]. intros b [<-|Hb]; auto.
    + right. exists (o :: l1), o', l2, c. auto.
  - destruct (can_map_related env Henv a o (tight a Ha) (tight o Ho) Hr) as (c & E & Hc & Hb). rewrite E.
    eexists. split; [reflexivity|]. right. exists [], o, out, c. auto.
Qed.
Definition covers_axes (seen out : list axis) : Prop := forall s, In s seen -> exists o l, In o out /\ restricts s l o.
Lemma merge_axes_spec : forall axes seen out, incl axes All -> incl out All -> separate out -> covers_axes seen out ->
  exists out', merge_axes env axes out = Some out' /\ incl out' All /\ separate out' /\ covers_axes (axes ++ seen) out'.
Proof.
  induction axes as [|a axes IH]; intros seen out Hax Hout Hsep Hcov.
  { exists out. repeat split; auto. }
  assert (In a All) as Ha by (apply Hax; now left). cbn [merge_axes]. destruct (merge_axis_cases a out Ha Hout) as (out1 & -> & C).
  assert (incl out1 All /\ separate out1 /\ covers_axes (a :: seen) out1) as (I1 & S1 & C1).
  { destruct C as [[-> C]|(l1 & o & l2 & c & -> & -> & Hc & [l Hac] & [m Hoc])].
    - split; [intros y Hy; apply in_app_or in Hy as [Hy|[<-|[]]]; auto|]. split; [now apply separate_snoc|].
      intros s [<-|Hs].
      + exists a, (arange 0 (axis_len a) 1). split; [apply in_or_app; right; now left|]. apply restricts_refl. apply (tight a Ha).
      + destruct (Hcov s Hs) as (o & l & Ho & Hr). exists o, l. split; [apply in_or_app; now left|exact Hr].
    - assert (In o All) as Ho by (apply Hout, in_or_app; right; now left).
      split; [|split].
      + intros y Hy. apply in_app_or in Hy as [Hy|[<-|Hy]].
        * apply Hout, in_or_app. now left.
        * destruct Hc as [->| ->]; assumption.
        * apply Hout, in_or_app. right. now right.
      + pose proof Hoc as (_ & _ & _ & Hs). apply (separate_change l1 o l2 c Hsep).
        * intros b. apply (sliced_unrelated_l _ _ _ b Hs).
        * intros b. apply (sliced_unrelated _ _ _ b Hs).
      + intros s [<-|Hs].
        * exists c, l. split; [apply in_or_app; right; now left|exact Hac].
        * destruct (Hcov s Hs) as (o' & l' & Ho' & Hr). apply in_app_or in Ho' as [Ho'|[<-|Ho']].
          -- exists o', l'. split; [apply in_or_app; now left|exact Hr].
          -- exists c, (map (znth l') m). split; [apply in_or_app; right; now left|]. apply (restricts_trans s l' o m c Hr Hoc).
          -- exists o', l'. split; [apply in_or_app; right; now right|exact Hr]. }
  destruct (IH (a :: seen) out1) as (out' & E & I2 & S2 & C2); auto; [intros y Hy; apply Hax; now right|].
  exists out'. repeat split; auto. intros s Hs. apply C2. apply in_or_app. cbn in Hs. destruct Hs as [<-|Hs]; [right; now left|].
  apply in_app_or in Hs as [Hs|Hs]; [now left|right; now right].
Qed.

Lemma combine_axes_spec lists : concat lists = All -> lists <> [] -> Forall separate lists ->
  exists B, combine_axes env lists = Some B /\ incl B All /\ separate B /\ covers_axes All B.
Proof.
  intros Hc Hne Hsep.
  assert (forall A, In A lists -> incl A All) as Hinc.
  { intros A HA y Hy. rewrite <- Hc. apply in_concat. eauto. }
  assert (exists B, (match merge_axes env (concat lists) [] with
    | None => None
    | Some out_axes =>
      match filter (fun A => forallb (fun outa => existsb (fun a => axis_same a outa) A) out_axes) lists with
      | A :: _ => Some A | [] => Some out_axes end end) = Some B /\ incl B All /\ separate B /\ covers_axes All B) as Hgen.
  { rewrite Hc. destruct (merge_axes_spec All [] []) as (out & E & I1 & S1 & C1); [apply incl_refl|intros y []| |intros y []|].
    { intros [|i] j a b H; discriminate. }
    rewrite E. rewrite app_nil_r in C1. destruct (filter _ lists) as [|A t] eqn:Ef; [exists out; auto|].
    assert (In A lists /\ forallb (fun outa => existsb (fun a => axis_same a outa) A) out = true) as [HA Hb].
    { apply (filter_In (fun A => forallb (fun outa => existsb (fun a => axis_same a outa) A) out)). rewrite Ef. now left. }
    exists A. split; [reflexivity|]. split; [now apply Hinc|]. split; [rewrite Forall_forall in Hsep; now apply Hsep|].
    intros s Hs. destruct (C1 s Hs) as (o & l & Ho & Hr). rewrite forallb_forall in Hb. specialize (Hb o Ho). apply existsb_exists in Hb as (a & Ha & Es).
    assert (exists m, restricts o m a) as (m & Hm).
    { destruct (Hcomp a o (Hinc A HA a Ha) (I1 o Ho)) as [[U _]|[[m Hm]|Hm]].
      - apply unrelated_same in U. congruence.
      - eexists. apply (restricts_same a m o Hm). now left.
      - exact Hm. }
    exists a, (map (znth l) m). split; [exact Ha|]. apply (restricts_trans s l o m a Hr Hm). }
  unfold combine_axes. destruct lists as [|A [|A' t]]; [congruence| |exact Hgen].
  exists A. assert (A = All) as -> by (cbn in Hc; rewrite app_nil_r in Hc; exact Hc). split; [reflexivity|]. split; [apply incl_refl|]. split; [now inversion Hsep|].
  intros s Hs. exists s, (arange 0 (axis_len s) 1). split; [exact Hs|]. apply restricts_refl. apply (tight s Hs).
Qed.


(** *** the other lists add nothing *)
Lemma merge_own : forall a out, incl out All -> In a out -> separate out -> merge_axis env a out = Some out.
Proof.
  clear Hcomp.
  intros a. induction out as [|o out IH]; intros Hi Ha Hs; [destruct Ha|]. assert (In a All) as HaA by now apply Hi. assert (In o All) as HoA by (apply Hi; now left).
  cbn [merge_axis]. destruct Ha as [->|Ha].
  - destruct (can_map_related env Henv a a (tight a HaA) (tight a HaA)) as (c & -> & Hc & _).
    { left. eexists. apply restricts_refl. apply (tight a HaA). }
    destruct Hc as [->| ->]; reflexivity.
  - apply In_nth_error in Ha as (k & Hk). rewrite (can_map_unrelated env a o).
    + rewrite IH; [reflexivity|intros y Hy; apply Hi; now right|eapply nth_error_In, Hk|].
      intros i j b c Hb Hc Hne. apply (Hs (S i) (S j) b c Hb Hc). congruence.
    + apply (Hs (S k) 0%nat a o); [exact Hk|reflexivity|discriminate].
    + apply (Hs 0%nat (S k) o a); [reflexivity|exact Hk|discriminate].
Qed.
Lemma merge_new : forall a out, (forall b, In b out -> unrelated a b /\ unrelated b a) -> merge_axis env a out = Some (out ++ [a]).
Proof.
  clear Hcomp.
  intros a. induction out as [|o out IH]; intros H; [reflexivity|]. cbn [merge_axis app]. destruct (H o) as [H1 H2]; [now left|].
  rewrite (can_map_unrelated env a o H1 H2), IH; [reflexivity|]. intros b Hb. apply H. now right.
Qed.
Lemma merge_first : forall axes out, separate (out ++ axes) -> merge_axes env axes out = Some (out ++ axes).
Proof.
  clear Hcomp.
  induction axes as [|a axes IH]; intros out Hs; [now rewrite app_nil_r|]. cbn [merge_axes]. rewrite merge_new.
  - rewrite IH; rewrite <- app_assoc; [reflexivity|exact Hs].
  - intros b Hb. apply In_nth_error in Hb as (k & Hk). assert (k < length out)%nat as L by (apply nth_error_Some; congruence).
    assert (nth_error (out ++ a :: axes) k = Some b) as E1 by now rewrite nth_error_app1.
    assert (nth_error (out ++ a :: axes) (length out) = Some a) as E2 by (rewrite nth_error_app2, Nat.sub_diag by lia; reflexivity).
    split; [apply (Hs _ _ _ _ E2 E1)|apply (Hs _ _ _ _ E1 E2)]; lia.
Qed.
Lemma merge_rest : forall axes out, incl out All -> separate out -> incl axes out -> merge_axes env axes out = Some out.
Proof.
  clear Hcomp.
  induction axes as [|a axes IH]; intros out Ho Hs Ha; [reflexivity|]. cbn [merge_axes]. rewrite merge_own; auto; [|apply Ha; now left].
  apply IH; auto. intros y Hy. apply Ha. now right.
Qed.
Lemma merge_axes_app axes axes' out : merge_axes env (axes ++ axes') out = match merge_axes env axes out with Some o => merge_axes env axes' o | None => None end.
Proof. clear Hcomp Htight. revert out. induction axes as [|a axes IH]; intros out; [reflexivity|]. cbn. destruct (merge_axis env a out); [apply IH|reflexivity]. Qed.
Lemma combine_first A rest : incl A All -> separate A -> Forall (fun l => incl l A) rest -> combine_axes env (A :: rest) = Some A.
Proof.
  clear Hcomp.
  intros HA Hs Hr. unfold combine_axes. destruct rest as [|A' rest]; [reflexivity|]. cbn [concat]. fold (concat (A' :: rest)).
  change (A ++ A' ++ concat rest) with (A ++ concat (A' :: rest)). rewrite merge_axes_app, (merge_first A [] Hs). cbn [app].
  rewrite merge_rest; auto.
  - cbn [filter]. assert (forallb (fun outa => existsb (fun a => axis_same a outa) A) A = true) as ->; [|reflexivity].
    apply forallb_forall. intros a Ha. apply existsb_exists. exists a. split; [exact Ha|apply same_refl].
  - intros y Hy. apply in_concat in Hy as (l & Hl & Hy). rewrite Forall_forall in Hr. exact (Hr l Hl y Hy).
Qed.
End Env.

(** *** where the axes of a variable are found *)
Definition located (B : list axis) (a : axis) (ii : nat * list Z) : Prop :=
  derived B a ii /\ NoDup (snd ii) /\ exists b, nth_error B (fst ii) = Some b /\ restricts a (snd ii) b.
Lemma locate_axis All B a : separate B -> covers_axes All B -> In a All -> exists ii, located B a ii.
Proof.
  intros Hsep Hcov Ha. destruct (Hcov a Ha) as (b & l & Hb & Hr). apply In_nth_error in Hb as (i & Hb). exists (i, l).
  pose proof Hr as (Ga & Hl & Hnd & Hs). split; [|split; [exact Hnd|exists b; auto]].
  split; [exact Hl|]. exists b. split; [exact Hb|]. split; [left; auto|]. cbn [fst]. intros i' b' Hne Hb'.
  apply (sliced_unrelated_l _ _ _ b' Hs). eapply Hsep; [exact Hb|exact Hb'|congruence].
Qed.
Lemma locate_axes All B axes : separate B -> covers_axes All B -> incl axes All -> separate axes ->
  exists js, Forall2 (located B) axes js /\ NoDup (map fst js).
Proof.
  intros Hsep Hcov Hin Hax. assert (exists js, Forall2 (located B) axes js) as (js & Hjs).
  { clear Hax. induction axes as [|a axes IH]; [exists []; constructor|].
    destruct (locate_axis All B a Hsep Hcov) as (ii & Hii); [apply Hin; now left|]. destruct IH as (js & Hjs); [intros y Hy; apply Hin; now right|].
    exists (ii :: js). now constructor. }
  exists js. split; [exact Hjs|]. apply NoDup_nth_error. intros k m Hk E. rewrite map_length in Hk.
  destruct (Nat.eq_dec k m) as [|Hne]; [assumption|exfalso]. pose proof (Forall2_len _ _ _ Hjs) as HL.
  rewrite !nth_error_map in E. destruct (nth_error js k) as [ii|] eqn:E1; [|apply nth_error_None in E1; lia]. cbn in E.
  destruct (nth_error js m) as [jj|] eqn:E2; [|discriminate]. cbn in E. injection E as E.
  destruct (nth_error axes k) as [a|] eqn:A1; [|apply nth_error_None in A1; lia].
  destruct (nth_error axes m) as [b|] eqn:A2; [|apply nth_error_None in A2; assert (m < length js)%nat by (apply nth_error_Some; congruence); lia].
  pose proof (Hax k m a b A1 A2 Hne) as U.
  destruct (Forall2_nth_error _ _ _ _ _ _ Hjs A1 E1) as (_ & _ & c & Hc & _ & _ & _ & Hs1).
  destruct (Forall2_nth_error _ _ _ _ _ _ Hjs A2 E2) as (_ & _ & d & Hd & _ & _ & _ & Hs2).
  rewrite E in Hc. rewrite Hc in Hd. injection Hd as <-.
  apply (sliced_unrelated_l _ _ _ b Hs1) in U. apply (sliced_unrelated _ _ _ c Hs2) in U. apply unrelated_same in U. now rewrite same_refl in U.
Qed.
(** an axis of the result that comes from one of the variables is found at its place *)
Lemma located_own B axes js i b : separate B -> Forall2 (located B) axes js -> nth_error B i = Some b -> In b axes -> In i (map fst js).
Proof.
  intros Hsep Hjs Hi Hb. apply In_nth_error in Hb as (k & Hk). pose proof (Forall2_len _ _ _ Hjs) as HL.
  destruct (nth_error js k) as [ii|] eqn:E1; [|apply nth_error_None in E1; assert (k < length axes)%nat by (apply nth_error_Some; congruence); lia].
  destruct (Forall2_nth_error _ _ _ _ _ _ Hjs Hk E1) as ((_ & _ & _ & _ & Hun) & _). apply in_map_iff. exists ii. split; [|eapply nth_error_In, E1].
  destruct (Nat.eq_dec (fst ii) i) as [|Hne]; [assumption|]. assert (unrelated b b) as U by (apply (Hun i b); [congruence|exact Hi]).
  apply unrelated_same in U. now rewrite same_refl in U.
Qed.

(** *** broadcasting *)
Definition fits (s t : list Z) : Prop := Forall2 (fun m n => m = n \/ m = 1) s t.
Lemma bcast_fits s t u : fits s u -> fits t u -> exists w, bcast_shape s t = Some w /\ fits w u /\ fits s w /\ fits t w.
Proof.
  unfold fits, bcast_shape. intros H. revert t. induction H as [|m n s u Hm _ IH]; intros t Ht; inversion Ht as [|m' ? t' ? Hm' Ht']; subst.
  - exists []. repeat split; constructor.
  - destruct (IH _ Ht') as (w & E & W1 & W2 & W3). cbn [length Nat.eqb combine map]. destruct (Nat.eqb (length s) (length t')) eqn:El; [|discriminate].
    cbn [sequence]. cbn [combine map] in E |- *.
    assert (exists d, bcast_dim m m' = Some d /\ (d = n \/ d = 1) /\ (m = d \/ m = 1) /\ (m' = d \/ m' = 1)) as (d & Ed & D1 & D2 & D3).
    { unfold bcast_dim. destruct (Z.eqb_spec m m') as [->|Hne]; [exists m'; auto|]. destruct (Z.eqb_spec m 1) as [->|Hm1]; [exists m'; auto|].
      destruct (Z.eqb_spec m' 1) as [->|Hm1']; [exists m; auto|]. destruct Hm, Hm'; congruence. }
    cbn [sequence map]. rewrite Ed, E. exists (d :: w). repeat split; constructor; auto.
Qed.
Lemma fits_trans s t u : fits s t -> fits t u -> fits s u.
Proof.
  unfold fits. intros H. revert u. induction H as [|m n s t Hm _ IH]; intros u Hu; inversion Hu as [|? n' ? u' Hn Hu']; subst; constructor; [|now apply IH].
  destruct Hm, Hn; subst; auto.
Qed.
Lemma bcast_shapes_fit ss u : ss <> [] -> Forall (fun s => fits s u) ss -> exists w, bcast_shapes ss = Some w /\ fits w u /\ Forall (fun s => fits s w) ss.
Proof.
  induction ss as [|s ss IH]; intros Hne H; [congruence|]. inversion H as [|? ? Hs Hss]; subst.
  assert (forall t, fits t t) as Hrefl by (intros t; unfold fits; induction t; constructor; auto).
  destruct ss as [|s' ss']; [exists s; repeat split; auto|]. destruct IH as (w & E & W1 & W2); [discriminate|exact Hss|].
  destruct (bcast_fits s w u Hs W1) as (w' & E' & V1 & V2 & V3). exists w'. split.
  - change (bcast_shapes (s :: s' :: ss')) with (match bcast_shapes (s' :: ss') with Some t => bcast_shape s t | None => None end). now rewrite E.
  - split; [exact V1|]. constructor; [exact V2|]. eapply Forall_impl; [|exact W2]. intros t Ht. now apply (fits_trans t w w').
Qed.
Lemma bcast_shapes_full ss u : ss <> [] -> Forall (fun s => fits s u) ss ->
  (forall i n, nth_error u i = Some n -> exists s, In s ss /\ nth_error s i = Some n) -> bcast_shapes ss = Some u.
Proof.
  intros Hne Hf Hcov. destruct (bcast_shapes_fit ss u Hne Hf) as (w & E & W1 & W2). rewrite E. f_equal. apply nth_error_ext'. intros i.
  pose proof (Forall2_len _ _ _ W1) as HL.
  destruct (nth_error u i) as [n|] eqn:En.
  - destruct (Hcov i n En) as (s & Hs & Ei). rewrite Forall_forall in W2. pose proof (W2 s Hs) as Hsw.
    destruct (nth_error w i) as [m|] eqn:Em; [|apply nth_error_None in Em; assert (i < length u)%nat by (apply nth_error_Some; congruence); lia].
    pose proof (Forall2_nth_error _ _ _ _ _ _ W1 Em En) as K1. pose proof (Forall2_nth_error _ _ _ _ _ _ Hsw Ei Em) as K2. cbv beta in K1, K2. f_equal. lia.
  - apply nth_error_None in En. apply nth_error_None. lia.
Qed.

Lemma broadcast_fits {V} (r : arr V) t : fits (shape r) t -> exists b, broadcast r t = Some b /\ shape b = t /\
  forall p, val b p = val r (map (fun '(m, x) => if m =? 1 then 0 else x) (combine (shape r) p)).
Proof.
  intros H. unfold broadcast. rewrite (Forall2_len _ _ _ H), Nat.eqb_refl.
  assert (forallb (fun '(m, n) => (m =? n) || (m =? 1)) (combine (shape r) t) = true) as ->.
  { induction H as [|m n s t Hm _ IH]; [reflexivity|]. cbn. rewrite IH, andb_true_r. destruct Hm as [->| ->]; [now rewrite Z.eqb_refl|now rewrite orb_true_r]. }
  eexists. split; [reflexivity|]. split; reflexivity.
Qed.
Lemma outshape_fits s sigma : fits (outshape s sigma) s.
Proof.
  apply Forall2_intro_nth; [apply (length_outshape (fun _ => tt))|]. intros i a b Ha Hb. unfold outshape in Ha. rewrite nth_error_map, nth_error_combine, Hb in Ha.
  rewrite nth_error_seq in Ha. destruct (Nat.ltb_spec i (length s)) as [_|L]; [|apply nth_error_None in L; congruence]. cbn in Ha. injection Ha as <-. destruct (existsb _ _); auto.
Qed.
Lemma nth_outshape s sigma i n : nth_error s i = Some n -> In i sigma -> nth_error (outshape s sigma) i = Some n.
Proof.
  intros Hb Hi. unfold outshape. rewrite nth_error_map, nth_error_combine, Hb.
  rewrite nth_error_seq. destruct (Nat.ltb_spec i (length s)) as [_|L]; [|apply nth_error_None in L; congruence]. cbn. apply existsb_In in Hi. now rewrite Hi.
Qed.

Section View.
Context {V : Type} (env : axenv) (Henv : env_ok env) (junk : list Z -> V) (op : list V -> V).
Notation get := (ViewModel.get (axis_ops env) junk).
Notation supplies := (supplies env).

(** the data of an argument, seen from the axes [B] *)
Definition seen_from (B : list axis) (a : UfuncModel.arg V) (D E : list Z -> V) : Prop :=
  match a with
  | ANum c => forall p, E p = c
  | AVar x => exists js, Forall2 (located B) (var_axes x) js /\ NoDup (map fst js) /\ forall p, E p = derived_data D js p
  end.

Lemma various_map ind l : NoDup ind -> l <> [] -> increasing l -> in_range (zlen ind) l -> various (map (znth ind) l).
Proof.
  intros Hnd Hne Hinc Hr. destruct (increasing_various l Hne Hinc) as [H|(i & j & Hi & Hj & Hij)].
  - left. unfold zlen in *. now rewrite map_length.
  - right. exists (znth ind i), (znth ind j). split; [now apply in_map|]. split; [now apply in_map|]. intros E. apply Hij.
    unfold in_range in Hr. rewrite Forall_forall in Hr. pose proof (elem_znth ind i (Hr i Hi)) as E1. pose proof (elem_znth ind j (Hr j Hj)) as E2.
    rewrite E in E1. exact (TimeMapProofs.NoDup_at ind i j _ Hnd E1 E2).
Qed.

Lemma get_located B L (x : var axis V) D js : responds env x D -> Forall2 selection B L -> Forall2 (located B) (var_axes x) js -> NoDup (map fst js) ->
  exists r, get (view_of_inds B L) x true true = Some r /\ array_is r (outshape (map zlen L) (map fst js)) (fun p => derived_data D js (gather L p)).
Proof.
  intros Hx HL Hjs Hnd. apply (get_derived_any env Henv junk B L x D js Hx); [| |exact Hnd|].
  - eapply Forall2_impl; [|exact HL]. intros b l (H1 & H2 & _). auto.
  - eapply Forall2_impl; [|exact Hjs]. intros a ii (H & _). exact H.
  - apply Forall_forall. intros [i ind] Hi. destruct (Forall2_In_r _ _ _ _ Hjs Hi) as (a & _ & _ & Hn & b & Hb & Hr). cbn [fst snd] in *.
    assert (exists l, nth_error L i = Some l) as (l & Hl).
    { destruct (nth_error L i) eqn:E; [eauto|]. apply nth_error_None in E. pose proof (Forall2_len _ _ _ HL). assert (i < length B)%nat by (apply nth_error_Some; congruence). lia. }
    rewrite (nth_error_nth _ _ [] Hl). destruct (Forall2_nth_error _ _ _ _ _ _ HL Hb Hl) as (H1 & H2 & H3).
    apply various_map; auto. destruct Hr as (Ga & _ & _ & Hs). now rewrite (sliced_len _ _ _ Ga Hs) in H2.
Qed.

Definition value_of (s : list Z) (E : list Z -> V) (L : list (list Z)) (v : argval V) : Prop :=
  match v with
  | Scalar c => forall p, E p = c
  | Array r => fits (shape r) s /\ forall p, position s p -> val r (map (fun '(m, x) => if m =? 1 then 0 else x) (combine (shape r) p)) = E (gather L p)
  end.

Lemma located_value B L (x : var axis V) D js r : Forall2 selection B L -> Forall2 (located B) (var_axes x) js ->
  array_is r (outshape (map zlen L) (map fst js)) (fun p => derived_data D js (gather L p)) ->
  value_of (map zlen L) (derived_data D js) L (Array r).
Proof.
  intros HL Hjs [Hs Hv]. split; [rewrite Hs; apply outshape_fits|]. intros p Hp. rewrite Hs.
  set (s := map zlen L) in *. pose proof (Forall2_len _ _ _ Hp) as Hlen. pose proof (length_outshape junk s (map fst js)) as Ho.
  set (p' := map _ (combine _ p)).
  assert (length p' = length p) as Hp'len by (unfold p'; rewrite map_length, combine_length; lia).
  assert (forall i m x, nth_error (outshape s (map fst js)) i = Some m -> nth_error p i = Some x -> nth_error p' i = Some (if m =? 1 then 0 else x)) as Hn.
  { intros i m x' Hm Hx. unfold p'. now rewrite nth_error_map, nth_error_combine, Hm, Hx. }
  rewrite Hv.
  2:{ apply Forall2_intro_nth; [congruence|]. intros i m y Hm Hy.
      destruct (nth_error p i) as [xi|] eqn:Ex; [|apply nth_error_None in Ex; assert (i < length p')%nat by (apply nth_error_Some; congruence); lia].
      rewrite (Hn i m xi Hm Ex) in Hy. injection Hy as <-. destruct (Z.eqb_spec m 1) as [->|Hm1]; [lia|].
      destruct (nth_error s i) as [n|] eqn:En; [|apply nth_error_None in En; assert (i < length p)%nat by (apply nth_error_Some; congruence); lia].
      pose proof (Forall2_nth_error _ _ _ _ _ _ (outshape_fits s (map fst js)) Hm En) as [->|K]; [|congruence]. eapply (Forall2_nth_error _ _ _ _ _ _ Hp En Ex). }
  unfold derived_data. f_equal. apply map_ext_in. intros [i ind] Hi. f_equal.
  destruct (Forall2_In_r _ _ _ _ Hjs Hi) as (a & _ & _ & _ & b & Hb & _). cbn [fst] in Hb.
  assert (i < length L)%nat as HiL by (rewrite <- (Forall2_len _ _ _ HL); apply nth_error_Some; congruence).
  assert (length s = length L) as HsL by apply map_length.
  rewrite (nth_gather junk L p'), (nth_gather junk L p) by congruence || lia. f_equal.
  destruct (nth_error p i) as [xi|] eqn:Ex; [|apply nth_error_None in Ex; lia].
  destruct (nth_error s i) as [n|] eqn:En; [|apply nth_error_None in En; lia].
  assert (nth_error (outshape s (map fst js)) i = Some n) as Hm by (apply nth_outshape; [exact En|apply in_map_iff; exists (i, ind); auto]).
  rewrite (nth_error_nth _ _ 0 (Hn i n xi Hm Ex)), (nth_error_nth _ _ 0 Ex).
  destruct (Z.eqb_spec n 1) as [->|_]; [|reflexivity]. pose proof (Forall2_nth_error _ _ _ _ _ _ Hp En Ex) as K. cbv beta in K. lia.
Qed.

Lemma apply_op_spec s L (Es : list (list Z -> V)) vals : Forall2 (fun E v => value_of s E L v) Es vals ->
  bcast_shapes (flat_map (fun a => match a with Array a => [shape a] | Scalar _ => [] end) vals) = Some s ->
  exists r, apply_op op vals = Some r /\ array_is r s (fun p => op (map (fun E => E (gather L p)) Es)).
Proof.
  intros H Eb. unfold apply_op. rewrite Eb.
  assert (exists vals', sequence (map (fun a => match a with
                                  | Array a => match broadcast a s with Some b => Some (Array b) | None => None end
                                  | Scalar v => Some (Scalar v) end) vals) = Some vals' /\
          forall p, position s p -> map (at_position p) vals' = map (fun E => E (gather L p)) Es) as (vals' & -> & Hv).
  { clear Eb. induction H as [|E v Es vals Hv _ IH].
    - exists []. split; reflexivity.
    - destruct IH as (vals' & Ev & IH). cbn [map sequence]. rewrite Ev. destruct v as [c|r].
      + exists (Scalar c :: vals'). split; [reflexivity|]. intros p Hp. cbn [map at_position]. rewrite (IH p Hp). f_equal. symmetry. apply Hv.
      + destruct Hv as [Hf Hv]. destruct (broadcast_fits r s Hf) as (b & Eb & _ & Hb). rewrite Eb. exists (Array b :: vals'). split; [reflexivity|].
        intros p Hp. cbn [map at_position]. rewrite (IH p Hp), Hb, (Hv p Hp). reflexivity. }
  eexists. split; [reflexivity|]. split; [reflexivity|]. intros p Hp. cbn [val]. now rewrite (Hv p Hp).
Qed.

Lemma variable_responds (args : list (UfuncModel.arg V)) data (x : var axis V) : Forall2 supplies args data -> In x (variables args) -> exists D, responds env x D.
Proof.
  induction 1 as [|a D args data H _ IH]; [intros []|]. cbn. intros Hx. apply in_app_or in Hx as [Hx|Hx]; [|now apply IH].
  destruct a as [c|y]; [destruct Hx|]. destruct Hx as [<-|[]]. exists D. exact H.
Qed.
Lemma seen_all All (args : list (UfuncModel.arg V)) data B : Forall2 supplies args data -> (forall x, In x (variables args) -> incl (var_axes x) All) -> separate B -> covers_axes All B -> exists Es, Forall2 (fun aD E => seen_from B (fst aD) (snd aD) E) (combine args data) Es.
Proof.
  intros Hdata Hin Hsep Hcov. revert Hin. induction Hdata as [|a D args data H Hd IH]; intros Hin; [exists []; constructor|].
  destruct IH as (Es & HEs); [intros x Hx; apply Hin; cbn; apply in_or_app; now right|].
  destruct a as [c|x].
  - exists ((fun _ => c) :: Es). constructor; [intros p; reflexivity|exact HEs].
  - destruct (locate_axes All B (var_axes x) Hsep Hcov) as (js & Hjs & Hnd); [apply Hin; now left|apply H|].
    exists (derived_data D js :: Es). constructor; [|exact HEs]. exists js. auto.
Qed.

Lemma args_read (args : list (UfuncModel.arg V)) data B L Es : Forall2 supplies args data -> Forall2 selection B L -> Forall2 (fun aD E => seen_from B (fst aD) (snd aD) E) (combine args data) Es ->
  exists vals, sequence (map (fun a => match a with
                                | ANum c => Some (Scalar c)
                                | AVar x => match get (view_of_inds B L) x true true with Some r => Some (Array r) | None => None end
                                end) args) = Some vals /\
    Forall2 (fun E v => value_of (map zlen L) E L v) Es vals /\
    (forall x, In x (variables args) -> exists js r, Forall2 (located B) (var_axes x) js /\ In (Array r) vals /\ shape r = outshape (map zlen L) (map fst js)).
Proof.
  intros Hdata HL. revert Es. induction Hdata as [|a D args data H Hd IH]; intros Es HEs; cbn [combine] in HEs; inversion HEs as [|? E ? Es' HE HEs']; subst.
  - exists []. split; [reflexivity|]. split; [constructor|intros x []].
  - destruct (IH _ HEs') as (vals & Ev & Hv & Hx). cbn [map sequence]. rewrite Ev. cbn [fst snd] in HE. destruct a as [c|x].
    + exists (Scalar c :: vals). split; [reflexivity|]. split; [constructor; [exact HE|exact Hv]|]. intros y Hy. destruct (Hx y Hy) as (js & r & K1 & K2 & K3). exists js, r. split; [exact K1|split; [now right|exact K3]].
    + destruct HE as (js & Hjs & Hnd & HE). destruct (get_located B L x D js H HL Hjs Hnd) as (r & Er & Hr). rewrite Er.
      exists (Array r :: vals). split; [reflexivity|]. split.
      * constructor; [|exact Hv]. destruct (located_value B L x D js r HL Hjs Hr) as [K1 K2]. split; [exact K1|]. intros p Hp. now rewrite (K2 p Hp), HE.
      * cbn [variables flat_map]. intros y [<-|Hy].
        -- exists js, r. split; [exact Hjs|]. split; [now left|]. apply Hr.
        -- destruct (Hx y Hy) as (js' & r' & K1 & K2 & K3). exists js', r'. split; [exact K1|split; [now right|exact K3]].
Qed.

(** *** the result *)
Context (args : list (UfuncModel.arg V)) (data : list (list Z -> V)) (Hdata : Forall2 supplies args data) (Hvars : variables args <> []).
Let lists := map var_axes (variables args).
Let All := concat lists.
Context (Htight : Forall tight_axis All) (Hcomp : forall a b, In a All -> In b All -> compatible a b).

Lemma var_incl x : In x (variables args) -> incl (var_axes x) All.
Proof. intros Hx a Ha. unfold All, lists. apply in_concat. exists (var_axes x). split; [now apply in_map|exact Ha]. Qed.

Theorem ufunc_spec : exists y, ufunc_var env junk op args = Some y /\ separate (var_axes y) /\ incl (var_axes y) All /\ covers_axes All (var_axes y) /\
  exists Es, Forall2 (fun aD E => seen_from (var_axes y) (fst aD) (snd aD) E) (combine args data) Es /\
    responds env y (fun p => op (map (fun E => E p) Es)).
Proof.
  destruct (combine_axes_spec env Henv All Htight Hcomp lists eq_refl) as (B & EB & HB1 & HB2 & HB3).
  { unfold lists. intros E. apply map_eq_nil in E. contradiction. }
  { unfold lists. apply Forall_forall. intros A HA. apply in_map_iff in HA as (x & <- & Hx). destruct (variable_responds args data x Hdata Hx) as (D & H & _). exact H. }
  destruct (seen_all All args data B Hdata var_incl HB2 HB3) as (Es & HEs).
  unfold ufunc_var. fold lists. rewrite EB. eexists. split; [reflexivity|]. cbn [var_axes]. split; [exact HB2|]. split; [exact HB1|]. split; [exact HB3|].
  exists Es. split; [exact HEs|]. split; [exact HB2|]. cbn [var_source var_axes]. intros L HL.
  destruct (args_read args data B L Es Hdata HL HEs) as (vals & Ev & Hv & Hx). unfold ufunc_view. rewrite Ev.
  apply (apply_op_spec (map zlen L) L Es vals Hv).
  apply bcast_shapes_full.
  - destruct (variables args) as [|x t] eqn:Ex; [congruence|]. destruct (Hx x) as (js & r & _ & Hr & _); [now left|]. intros E.
    assert (In (shape r) (flat_map (fun a => match a with Array a => [shape a] | Scalar _ => [] end) vals)) as K by (apply in_flat_map; exists (Array r); split; [exact Hr|now left]).
    rewrite E in K. destruct K.
  - apply Forall_forall. intros s Hs. apply in_flat_map in Hs as (v & Hi & Hs). destruct v as [c|r]; [destruct Hs|]. destruct Hs as [<-|[]].
    destruct (Forall2_In_r _ _ _ _ Hv Hi) as (E & _ & K & _). exact K.
  - intros i n Hn. assert (exists b, nth_error B i = Some b) as (b & Hb).
    { destruct (nth_error B i) eqn:E; [eauto|]. apply nth_error_None in E. assert (i < length (map zlen L))%nat by (apply nth_error_Some; congruence).
      rewrite map_length, <- (Forall2_len _ _ _ HL) in H. lia. }
    assert (In b All) as Hball by (apply HB1; eapply nth_error_In, Hb). unfold All, lists in Hball. apply in_concat in Hball as (A & HA & Hba).
    apply in_map_iff in HA as (x & <- & HxA). destruct (Hx x HxA) as (js & r & Hjs & Hr & Hsh).
    exists (shape r). split; [apply in_flat_map; exists (Array r); split; [exact Hr|now left]|]. rewrite Hsh. apply nth_outshape; [exact Hn|].
    apply (located_own B (var_axes x) js i b HB2 Hjs Hb Hba).
Qed.
End View.
