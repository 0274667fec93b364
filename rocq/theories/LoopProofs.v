(** loopover: the accumulation loop of the reductions *)
From Coq Require Import ZArith List Bool Lia Permutation.
From Verif Require Import SortSpec IndexModel IndexSpec IndexProofs ChunkProofs ArrModel ViewModel ViewSpec ArrProofs ViewProofs
  AxisModel AxisSpec AxisProofs VarOpsModel VarOpsSpec VarOpsProofs ReduceModel ReduceSpec FibreProofs.
Import ListNotations.
Open Scope Z_scope.

(** ** loop_mem: every chunk is a block of subranges *)
Definition subr (ind c : list Z) : Prop := exists s e, 0 <= s < e /\ e <= zlen ind /\ c = subrange ind s e.

Lemma split_axis_subr ind n c : 1 <= n -> In c (split_axis ind n) -> subr ind c.
Proof.
  intros Hn Hc. unfold split_axis in Hc. apply in_map_iff in Hc as (j & <- & Hj). apply In_elem in Hj as [k Hj].
  apply elem_arange in Hj as (Hk & -> & Hlt & _); [|lia]. specialize (Hlt ltac:(lia)). unfold subr, zlen.
  exists (0 + k * n), (Z.min (0 + k * n + n) (Z.of_nat (length ind))). repeat split; nia.
Qed.

Lemma subrange_all {A} (l : list A) : subrange l 0 (zlen l) = l.
Proof. unfold subrange, zlen. cbn. rewrite Nat2Z.id, Nat.sub_0_r. apply firstn_all. Qed.

Lemma loop_mem_subr MAX inds preserve : 1 <= MAX -> Forall (fun l => l <> []) inds ->
  NoDup preserve -> Forall (fun i => (i < length inds)%nat) preserve ->
  forall c, In c (loop_mem MAX inds preserve) -> Forall2 subr inds c.
Proof.
  intros HM Hne Hnd Hpr c Hc.
  assert (forall i, (i < length inds)%nat -> 1 <= zlen (nth i inds [])) as Hlen.
  { intros i Hi. pose proof (proj1 (Forall_forall _ _) Hne _ (nth_In _ [] Hi)). destruct (nth i inds []) as [|z r]; [congruence|].
    rewrite zlen_cons. pose proof (zlen_nonneg r). lia. }
  unfold loop_mem in Hc. destruct (preserve_loop inds preserve MAX (map (fun _ => []) inds)) as [m L] eqn:EP.
  pose proof (preserve_loop_len _ _ _ _ _ _ EP) as HLL. rewrite map_length in HLL.
  pose proof (preserve_loop_in _ _ _ _ _ _ EP ltac:(eapply Forall_impl; [|exact Hpr]; intros; now rewrite map_length)) as HPin.
  pose proof (preserve_loop_max _ _ _ _ _ _ EP HM ltac:(intros i Hi; apply Hlen, (proj1 (Forall_forall _ _) Hpr), Hi)) as [Hm1 Hm2].
  set (isp := fun i => existsb (Nat.eqb i) preserve) in *.
  assert (forall i, isp i = true <-> In i preserve) as Hisp.
  { intros i. unfold isp. rewrite existsb_exists. split; [intros (x & H1 & H2%Nat.eqb_eq); now subst|intros; exists i; split; [assumption|apply Nat.eqb_refl]]. }
  set (others := filter (fun i => negb (isp i)) (seq 0 (length inds))) in *.
  assert (forall i, In i others <-> (i < length inds)%nat /\ ~ In i preserve) as Hoth.
  { intros i. unfold others. rewrite filter_In, in_seq, negb_true_iff, <- not_true_iff_false, Hisp. intuition lia. }
  assert (NoDup (rev others)) as Hndo by (apply NoDup_rev, NoDup_filter, seq_NoDup).
  destruct (others_loop_spec inds (rev others) m L Hm1 Hndo) as (HRl & ns & HR1 & HR2 & HR3).
  { intros i Hi. apply in_rev, Hoth in Hi as [Hi _]. split; [lia|now apply Hlen]. }
  set (R := others_loop inds (rev others) m L) in *.
  change (In c (product R)) in Hc. apply In_elem in Hc as [k Hk]. apply product_elem_Forall2 in Hk.
  apply Forall2_intro_nth; [apply Forall2_len in Hk; rewrite HRl, HLL in Hk; now symmetry|]. intros i ind ci Hi Hci.
  assert (i < length inds)%nat as Hil by (apply nth_error_Some; congruence).
  pose proof (Forall2_nth_in _ _ [] i Hk ltac:(rewrite HRl, HLL; exact Hil)) as Hin. rewrite (nth_error_nth _ _ [] Hci) in Hin.
  specialize (Hlen i Hil). rewrite (nth_error_nth _ _ [] Hi) in Hlen.
  destruct (in_dec Nat.eq_dec i preserve) as [Hp|Hp].
  - rewrite HR2 in Hin by (intros Hx; apply in_rev, Hoth in Hx; tauto). rewrite (proj1 (HPin i) Hp) in Hin. destruct Hin as [<-|[]].
    rewrite (nth_error_nth _ _ [] Hi). exists 0, (zlen ind). rewrite subrange_all. repeat split; lia.
  - destruct (HR1 i) as [Hn E]; [apply -> in_rev; apply Hoth; auto|]. rewrite E, (nth_error_nth _ _ [] Hi) in Hin. now apply (split_axis_subr _ (ns i)).
Qed.

Lemma subrange_map ind s e : 0 <= s <= e -> e <= zlen ind -> subrange ind s e = map (znth ind) (arange s e 1).
Proof.
  intros H1 H2. apply list_ext. intros k x. rewrite elem_subrange, elem_map by lia. split.
  - intros [Hk He]. exists (s + k). split; [apply elem_arange; [lia|repeat split; lia]|]. symmetry. now apply znth_elem.
  - intros (y & Hy & ->). apply elem_arange in Hy as (Hk & -> & Hlt & _); [|lia]. specialize (Hlt ltac:(lia)).
    replace (s + k * 1) with (s + k) in * by lia. split; [lia|]. apply elem_znth. lia.
Qed.

Lemma zlen_arange1 s e : s <= e -> zlen (arange s e 1) = e - s.
Proof.
  intros H. unfold arange, zlen. rewrite map_length, seq_length. cbn [Z.ltb Z.compare]. replace (e - s + 1 - 1) with (e - s) by lia. rewrite Z.div_1_r. lia.
Qed.

Lemma znth_arange1 s e k : 0 <= k < e - s -> znth (arange s e 1) k = s + k.
Proof. intros H. apply znth_elem, elem_arange; [lia|]. repeat split; lia. Qed.

Lemma subrange_zlen {A} (l : list A) s e : 0 <= s <= e -> e <= zlen l -> zlen (subrange l s e) = e - s.
Proof. intros H1 H2. unfold subrange, zlen in *. rewrite firstn_length, skipn_length. lia. Qed.

Lemma increasing_NoDup l : increasing l -> NoDup l.
Proof.
  intros H. apply NoDup_nth_error. intros i j Hi E. destruct (nth_error l i) as [x|] eqn:Ei; [|apply nth_error_Some in Hi; contradiction].
  destruct (Nat.lt_trichotomy i j) as [L|[L|L]]; [|exact L|].
  - specialize (H (Z.of_nat i) (Z.of_nat j) x x). unfold elem in H. rewrite !Nat2Z.id in H. specialize (H ltac:(split; [lia|auto]) ltac:(split; [lia|auto])). lia.
  - specialize (H (Z.of_nat j) (Z.of_nat i) x x). unfold elem in H. rewrite !Nat2Z.id in H. specialize (H ltac:(split; [lia|auto]) ltac:(split; [lia|auto])). lia.
Qed.

Lemma increasing_subr l c : increasing l -> subr l c -> increasing c.
Proof.
  intros H (s & e & H1 & H2 & ->) i j x y Hi Hj Hij. apply elem_subrange in Hi as [_ Hi]; [|lia]. apply elem_subrange in Hj as [_ Hj]; [|lia].
  apply (H (s + i) (s + j)); auto. lia.
Qed.
Lemma subr_ne l c : subr l c -> c <> [].
Proof. intros (s & e & H1 & H2 & ->) E. apply (f_equal zlen) in E. rewrite subrange_zlen in E by lia. unfold zlen in E. cbn in E. lia. Qed.
Lemma subr_range n l c : in_range n l -> subr l c -> in_range n c.
Proof.
  intros H (s & e & H1 & H2 & ->). apply Forall_forall. intros x Hx. apply In_elem in Hx as [k Hk]. apply elem_subrange in Hk as [_ Hk]; [|lia].
  eapply in_range_elem; eassumption.
Qed.
Lemma increasing_arange n : increasing (arange 0 n 1).
Proof. intros i j x y Hi Hj Hij. apply elem_arange01 in Hi as [-> _], Hj as [-> _]. exact Hij. Qed.

(** ** dropping positions *)
Fixpoint rank (gone : list bool) (i : nat) : nat :=
  match gone, i with
  | [], _ | _, O => 0
  | g :: gone, S i => if g then rank gone i else S (rank gone i)
  end.
Lemma nth_error_dropped {A} gone (l : list A) i : nth_error gone i = Some false -> nth_error (dropped gone l) (rank gone i) = nth_error l i.
Proof.
  revert l i. induction gone as [|g gone IH]; intros l [|i] Hi; cbn in *; try discriminate.
  - injection Hi as ->. destruct l; reflexivity.
  - destruct g, l as [|a l]; cbn; auto. destruct (rank gone i); reflexivity.
Qed.
Lemma dropped_nth {A} gone (l : list A) j b : nth_error (dropped gone l) j = Some b ->
  exists i, nth_error gone i = Some false /\ nth_error l i = Some b /\ rank gone i = j.
Proof.
  revert l j. induction gone as [|g gone IH]; intros l j H; [destruct j; discriminate|].
  destruct l as [|a l]; [destruct g, j; discriminate|]. destruct g; cbn in H.
  - apply IH in H as (i & H1 & H2 & H3). exists (S i). auto.
  - destruct j as [|j]; cbn in H.
    + injection H as <-. exists O. auto.
    + apply IH in H as (i & H1 & H2 & H3). exists (S i). cbn. auto.
Qed.
Lemma dropped_intro {A B} (R : A -> B -> Prop) gone l l' : length l = length l' ->
  (forall i a b, nth_error gone i = Some false -> nth_error l i = Some a -> nth_error l' i = Some b -> R a b) ->
  Forall2 R (dropped gone l) (dropped gone l').
Proof.
  revert l l'. induction gone as [|g gone IH]; intros [|a l] [|b l'] Hlen H; cbn; try discriminate; try constructor; try (destruct g; constructor).
  cbn in Hlen. injection Hlen as Hlen. assert (Forall2 R (dropped gone l) (dropped gone l')) by (apply IH; [auto|]; intros i; apply (H (S i))).
  destruct g; [assumption|]. constructor; [apply (H O); reflexivity|assumption].
Qed.

(** ** numpy updates *)
Lemma last_index_None l x k : ~ In x l -> last_index l x k = None.
Proof.
  revert k. induction l as [|y l IH]; intros k H; [reflexivity|]. cbn. rewrite IH by (intro; apply H; now right).
  destruct (Z.eqb_spec x y); [subst; exfalso; apply H; now left|reflexivity].
Qed.
Lemma last_index_elem l x i k : NoDup l -> elem l i x -> last_index l x k = Some (k + i).
Proof.
  intros Hnd. revert i k. induction Hnd as [|y l Hni Hnd IH]; intros i k He; [now apply elem_nil in He|].
  apply elem_cons in He as [[-> ->] | [Hi He]]; cbn.
  - rewrite last_index_None by assumption. rewrite Z.eqb_refl. f_equal. lia.
  - rewrite (IH _ _ He). f_equal. lia.
Qed.

Definition hits (se : list (Z * Z)) (p : list Z) : Prop := Forall2 (fun '(s, e) x => s <= x < e) se p.
Definition shifted_back (se : list (Z * Z)) (p : list Z) : list Z := map (fun '((s, _), x) => x - s) (combine se p).

Lemma locate_hit se p : Forall (fun '(s, e) => 0 <= s < e) se -> hits se p ->
  locate (map (fun '(s, e) => arange s e 1) se) p = Some (shifted_back se p).
Proof.
  intros Hse Hh. induction Hh as [|[s e] x se p Hx Hh IH]; [reflexivity|]. inversion Hse; subst. cbn [map locate shifted_back combine].
  rewrite (last_index_elem _ _ (x - s)). 2: apply increasing_NoDup; intros i j a b Hi Hj Hij; apply elem_arange in Hi, Hj; lia.
  2: apply elem_arange; [lia|]; repeat split; lia.
  rewrite IH by assumption. reflexivity.
Qed.
Lemma locate_miss se p : length se = length p -> Forall (fun '(s, e) => 0 <= s < e) se -> ~ hits se p ->
  locate (map (fun '(s, e) => arange s e 1) se) p = None.
Proof.
  revert p. induction se as [|[s e] se IH]; intros [|x p] Hl Hse Hn; try discriminate; [exfalso; apply Hn; constructor|].
  inversion Hse; subst. cbn [map locate]. destruct (last_index (arange s e 1) x 0) eqn:E; [|reflexivity].
  rewrite IH; [reflexivity|cbn in Hl; lia|assumption|]. intros Hh. apply Hn. constructor; [|exact Hh].
  destruct (Z_lt_dec x s); [|destruct (Z_lt_dec x e); [lia|]]; (rewrite last_index_None in E; [discriminate|]; intros Hin; apply In_elem in Hin as [k Hk]; apply elem_arange in Hk; lia).
Qed.

Lemma simplify_arange_slice s e : 0 <= s < e -> is_list (simplify (arange s e 1)) = false.
Proof.
  intros H. pose proof (simplify_run (arange s e 1) s) as HH. destruct (simplify (arange s e 1)) as [[[a|] [b|] ?]| |] eqn:E; try reflexivity; exfalso.
  all: rewrite ?E in HH; cbn in HH; assert (arange s e 1 <> []) as Hne by (intros E'; apply (f_equal zlen) in E'; rewrite zlen_arange1 in E' by lia; unfold zlen in E'; cbn in E'; lia);
    specialize (HH Hne); assert (None = Some (s, zlen (arange s e 1))) by (apply HH; [|lia]; intros k Hk; rewrite zlen_arange1 in Hk by lia; apply elem_arange; [lia|]; repeat split; lia); discriminate.
Qed.

Lemma broadcast_same {V} (b : arr V) s : shape b = s -> exists b', broadcast b s = Some b' /\ shape b' = s /\ forall p, position s p -> val b' p = val b p.
Proof.
  intros <-. unfold broadcast. rewrite Nat.eqb_refl.
  assert (forallb (fun '(m, n) => (m =? n) || (m =? 1)) (combine (shape b) (shape b)) = true) as ->.
  { induction (shape b); cbn; [reflexivity|]. now rewrite Z.eqb_refl. }
  eexists. split; [reflexivity|]. split; [reflexivity|]. intros p Hp. cbn. f_equal.
  induction Hp; cbn; [reflexivity|]. rewrite IHHp. f_equal. destruct (Z.eqb_spec x 1); lia.
Qed.

Lemma broadcast_shape {V} (b b' : arr V) s : broadcast b s = Some b' -> shape b' = s.
Proof. unfold broadcast. destruct (_ && _); [intros [= <-]; reflexivity|discriminate]. Qed.

Definition cut (J : list (list Z)) (se : list (Z * Z)) (c : list (list Z)) : Prop :=
  length se = length c /\ Forall2 (fun l '((s, e), c) => 0 <= s < e /\ e <= zlen l /\ c = subrange l s e) J (combine se c).

Lemma cut_cons l J s e se ci c : cut (l :: J) ((s, e) :: se) (ci :: c) <-> (0 <= s < e /\ e <= zlen l /\ ci = subrange l s e) /\ cut J se c.
Proof.
  unfold cut. cbn [length combine]. split.
  - intros [H1 H2]. injection H1 as H1. inversion H2; subst. auto.
  - intros [H1 [H2 H3]]. split; [now rewrite H2|constructor; auto].
Qed.
Lemma cut_inv J se c (P : Prop) : cut J se c ->
  (J = [] -> se = [] -> c = [] -> P) ->
  (forall l J' s e se' ci c', J = l :: J' -> se = (s, e) :: se' -> c = ci :: c' -> 0 <= s < e -> e <= zlen l -> ci = subrange l s e -> cut J' se' c' -> P) -> P.
Proof.
  intros H P0 P1. destruct J as [|l J'], se as [|[s e] se'], c as [|ci c']; try (destruct H as [H1 H2]; try discriminate; inversion H2; fail); [auto|].
  apply cut_cons in H as [(A & B & C) H]. eapply P1; eauto.
Qed.

Lemma subr_split J c : Forall2 subr J c -> exists se, cut J se c.
Proof.
  intros H. induction H as [|l ci J' c' (s & e & H1 & H2 & H3) H (se & I)]; [exists []; repeat constructor|].
  exists ((s, e) :: se). apply cut_cons. auto.
Qed.
Lemma cut_subr J : forall se c, cut J se c -> Forall2 subr J c.
Proof.
  induction J as [|l J IH]; intros se c H; apply (cut_inv _ _ _ _ H); intros; subst; try discriminate; [constructor|].
  injection H0 as <- <-. constructor; [exists s, e; auto|eauto].
Qed.

Lemma cut_hit J : forall se c g p, cut J se c -> position (map zlen (dropped g J)) p -> hits (dropped g se) p ->
  position (map zlen (dropped g c)) (shifted_back (dropped g se) p) /\
  gather (dropped g c) (shifted_back (dropped g se) p) = gather (dropped g J) p.
Proof.
  induction J as [|l J' IH]; intros se c g p Hc Hp Hh; apply (cut_inv _ _ _ _ Hc); intros; subst; try discriminate.
  - destruct g as [|[] g]; cbn in *; inversion Hp; subst; split; try constructor; reflexivity.
  - injection H as <- <-. destruct g as [|[] g]; cbn [dropped map] in *.
    + inversion Hp; subst. split; [constructor|reflexivity].
    + apply (IH se' c' g p); auto.
    + inversion Hp as [|? x ? p' Hx Hp']; subst. inversion Hh as [|? ? ? ? Hx' Hh']; subst.
      destruct (IH se' c' g p' H5 Hp' Hh') as [I1 I2]. unfold shifted_back in *. cbn [combine map gather]. split.
      * constructor; [rewrite subrange_zlen by lia; lia|exact I1].
      * rewrite I2. f_equal. apply znth_elem. apply elem_subrange; [lia|]. split; [lia|]. replace (s + (x - s)) with x by lia. apply elem_znth. lia.
Qed.

Lemma gather_in ls : forall q, position (map zlen ls) q -> Forall (@NoDup Z) ls -> Forall2 (fun l x => NoDup l /\ In x l) ls (gather ls q).
Proof.
  induction ls as [|l ls IH]; intros q Hq Hnd; inversion Hq; subst; cbn; constructor.
  - inversion Hnd; subst. split; [assumption|]. eapply elem_In, elem_znth. assumption.
  - inversion Hnd; subst. now apply IH.
Qed.

Lemma fibl_ne g : forall c k, Forall (fun l => l <> []) c -> length g = length c -> length k = length (dropped g c) -> product (fibl g c k) <> [].
Proof.
  induction g as [|[] g IH]; intros [|l c] k Hne Hgc Hk; try discriminate.
  - cbn in Hgc. injection Hgc as Hgc. cbn [dropped] in Hk. inversion Hne; subst. cbn [fibl product]. specialize (IH _ _ H2 Hgc Hk).
    destruct l as [|x l]; [congruence|]. cbn. destruct (product (fibl g c k)); [congruence|discriminate].
  - cbn in Hgc. injection Hgc as Hgc. cbn [dropped] in Hk. destruct k as [|x k]; [discriminate|]. cbn in Hk. injection Hk as Hk. inversion Hne; subst. cbn [fibl product flat_map].
    specialize (IH _ _ H2 Hgc Hk). destruct (product (fibl g c k)); [congruence|discriminate].
Qed.

Lemma cut_miss J : Forall (@NoDup Z) J -> forall se c g p, cut J se c -> position (map zlen (dropped g J)) p ->
  Forall2 (fun l x => In x l) (dropped g c) (gather (dropped g J) p) -> hits (dropped g se) p.
Proof.
  intros Hnd. induction Hnd as [|l J' Hl Hnd IH]; intros se c g p Hc Hp HF; apply (cut_inv _ _ _ _ Hc); intros; subst; try discriminate.
  - destruct g as [|[] g]; cbn in *; inversion Hp; subst; constructor.
  - injection H as <- <-. destruct g as [|[] g]; cbn [dropped map] in *.
    + inversion Hp; subst. constructor.
    + apply (IH se' c' g p); auto.
    + inversion Hp as [|? x ? p' Hx Hp']; subst. cbn [gather] in HF. inversion HF as [|? ? ? ? Hin HF']; subst.
      constructor; [|apply (IH se' c' g p'); auto].
      apply In_elem in Hin as [k Hk]. apply elem_subrange in Hk as [Hk1 Hk2]; [|lia].
      pose proof (elem_znth l x Hx) as Hx2. destruct Hk2 as [Hk2 Hk3], Hx2 as [Hx2 Hx3].
      assert (Z.to_nat (s + k) = Z.to_nat x) as E.
      { rewrite NoDup_nth_error in Hl. apply Hl; [apply nth_error_Some; congruence|congruence]. }
      lia.
Qed.

Lemma cut_shapes J : forall se c g, cut J se c -> map (fun '(s, e) => e - s) (dropped g se) = map zlen (dropped g c) /\
  Forall2 (fun '(s, e) n => 0 <= s < e /\ e <= n) (dropped g se) (map zlen (dropped g J)).
Proof.
  induction J as [|l J' IH]; intros se c g Hc; apply (cut_inv _ _ _ _ Hc); intros; subst; try discriminate.
  - destruct g as [|[] g]; split; constructor.
  - injection H as <- <-. destruct g as [|[] g]; cbn [dropped map]; [split; constructor|apply IH; auto|]. destruct (IH se' c' g H5) as [I1 I2].
    split; [|constructor; auto]. rewrite I1, subrange_zlen by lia. reflexivity.
Qed.

Lemma filter_perm {A} (f : A -> bool) l l' : Permutation l l' -> Permutation (filter f l) (filter f l').
Proof.
  intros H. induction H; cbn; auto.
  - destruct (f x); auto.
  - destruct (f y), (f x); auto; constructor.
  - etransitivity; eassumption.
Qed.

Lemma hits_dec se : forall p, hits se p \/ ~ hits se p.
Proof.
  induction se as [|[s e] l IH]; intros [|x p]; try (right; intros HH; inversion HH; fail); [left; constructor|].
  destruct (IH p) as [Hl|Hl]; [|right; intros HH; inversion HH; contradiction].
  destruct (Z_le_dec s x); [destruct (Z_lt_dec x e)|]; try (right; intros HH; inversion HH; lia). left. constructor; [lia|exact Hl].
Qed.

Section Loop.
Context {V W X : Type} (env : axenv) (Henv : env_ok env) (junk : list Z -> V) (MAX : Z) (HMAX : 1 <= MAX).
Notation ops := (axis_ops env).
Notation var := (ViewModel.var axis V).
Notation get := (ViewModel.get ops junk).

Lemma update_spec (f : W -> X -> W) (a : arr W) (b b' : arr X) se :
  length se = length (shape a) -> Forall2 (fun '(s, e) n => 0 <= s < e /\ e <= n) se (shape a) ->
  broadcast b (map (fun '(s, e) => e - s) se) = Some b' ->
  exists r, update f a (map (fun '(s, e) => simplify (arange s e 1)) se) b = Some r /\ shape r = shape a /\
    forall p, position (shape a) p ->
      (hits se p -> val r p = f (val a p) (val b' (shifted_back se p))) /\ (~ hits se p -> val r p = val a p).
Proof.
  intros Hl Hse Hb. unfold update, getitem, setitem.
  assert (np_indices a (map (fun '(s, e) => simplify (arange s e 1)) se) = Some (map (fun '(s, e) => arange s e 1) se)) as Hni.
  { unfold np_indices. rewrite map_length, Hl, Nat.eqb_refl.
    assert (filter is_list (map (fun '(s, e) => simplify (arange s e 1)) se) = []) as ->.
    { clear -Hse. induction Hse as [|[s e] n se ns [H _] Hse IH]; [reflexivity|]. cbn [map filter]. rewrite simplify_arange_slice by lia. exact IH. }
    cbn [length Nat.leb andb]. clear -Hse. induction Hse as [|[s e] n se ns [H H'] Hse IH]; [reflexivity|]. cbn [map combine sequence].
    rewrite np_index_simplify, IH; [reflexivity|]. apply Forall_forall. intros x Hx. apply In_elem in Hx as [k Hk]. apply elem_arange in Hk; lia. }
  rewrite Hni.
  assert (map zlen (map (fun '(s, e) => arange s e 1) se) = map (fun '(s, e) => e - s) se) as Hsh.
  { clear -Hse. induction Hse as [|[s e] n se ns [H H'] Hse IH]; [reflexivity|]. cbn. rewrite zlen_arange1 by lia. now rewrite IH. }
  unfold zip_to. cbn [shape outer_index]. rewrite Hsh, Hb.
  set (c := Arr (map (fun '(s, e) => e - s) se) _).
  destruct (broadcast_same c (map (fun '(s, e) => e - s) se) eq_refl) as (c' & Hc & Hcs & Hcv).
  rewrite Hc. eexists. split; [reflexivity|]. split; [reflexivity|]. intros p Hp.
  assert (Forall (fun '(s, e) => 0 <= s < e) se) as Hse'.
  { clear -Hse. induction Hse as [|[s e] n se ns [H H'] Hse IH]; constructor; [lia|assumption]. }
  split.
  - intros Hh. cbn [val]. rewrite (locate_hit se p Hse' Hh).
    assert (position (map (fun '(s, e) => e - s) se) (shifted_back se p)) as Hsp.
    { clear -Hh. induction Hh as [|[s e] x se p Hx Hh IH]; cbn; constructor; [lia|exact IH]. }
    rewrite Hcv by exact Hsp. cbn [val c]. f_equal. cbn [outer_index val]. f_equal.
    clear -Hh. induction Hh as [|[s e] x se p Hx Hh IH]; [reflexivity|]. cbn [map shifted_back combine gather] in *.
    unfold shifted_back in IH. rewrite IH. rewrite znth_arange1 by lia. f_equal. lia.
  - intros Hn. cbn [val]. rewrite locate_miss; [reflexivity| |exact Hse'|exact Hn]. apply Forall2_len in Hp. lia.
Qed.

(** ** views *)
Lemma map_axis_strict v strict a r : map_axis ops v true a = Some r -> map_axis ops v strict a = Some r.
Proof.
  destruct strict; [auto|]. unfold map_axis. destruct (find_first _ _) as [[]|]; [auto|]. destruct (subaxes ops v); [|auto].
  destruct (find_first _ _) as [[]|]; [auto|discriminate].
Qed.

Lemma map_to_any v strict axes mm :
  Forall2 (fun a m => exists sl oi, map_axis ops v strict a = Some (sl, oi) /\ expand sl (axis_len a) = Some m) axes mm ->
  exists order, map_to ops v axes strict = Some (view_of_inds axes mm, order).
Proof.
  intros Hm. unfold map_to.
  assert (exists ms, sequence (map (map_axis ops v strict) axes) = Some ms /\ length ms = length axes /\
            sequence (map (fun '(sl, a) => expand sl (len ops a)) (combine (map fst ms) axes)) = Some mm) as (ms & H1 & H2 & H3).
  { clear -Hm. induction Hm as [|a m axs mm (sl & oi & E1 & E2) Hm (ms & I1 & I2 & I3)]; [exists []; auto|].
    exists ((sl, oi) :: ms). cbn [map sequence fst combine length]. rewrite E1, I1, I3. cbn [len axis_ops]. rewrite E2. auto. }
  rewrite H1. unfold view_of_slices. rewrite map_length, H2, Nat.eqb_refl, H3. eexists. reflexivity.
Qed.

Lemma same_len a b : axis_same a b = true -> good_axis a -> good_axis b -> axis_len a = axis_len b.
Proof.
  destruct a as [c|m|s], b as [d|n|t]; cbn; intros H G G'; try discriminate.
  - apply orb_prop in H as [H|H].
    + unfold coord_is in H. apply andb_prop in H as [_ H]. apply qlist_eqb_elem in H as [H _]. exact H.
    + apply coord_eq_close in H as [H _]. exact H.
  - unfold noncoord_eq in H. apply andb_prop in H as [_ H]. destruct (list_eq_dec _ _ _) as [->|]; [reflexivity|discriminate].
  - unfold time_eq in H. apply andb_prop in H as [H _]. apply andb_prop in H as [_ H]. apply Nat.eqb_eq in H. unfold zlen. now rewrite H.
Qed.

Lemma full_increasing n l : increasing l -> in_range n l -> zlen l = n -> l = arange 0 n 1.
Proof.
  intros Hi Hr Hl. apply is_arange; [pose proof (zlen_nonneg l); lia|exact Hl|].
  assert (forall k x, 0 <= k -> elem l k x -> k <= x) as Hlow.
  { intros k x Hk. revert x. pattern k. apply natlike_ind; [| |exact Hk].
    - intros x Hx. apply (in_range_elem _ _ _ _ Hr) in Hx. lia.
    - intros j Hj IH x Hx. assert (0 <= j < zlen l) as Hjl by (apply elem_lt in Hx; lia). destruct (elem_ex l j Hjl) as [y Hy].
      specialize (IH _ Hy). specialize (Hi j (Z.succ j) y x Hy Hx ltac:(lia)). lia. }
  assert (forall m k x, 0 <= m -> zlen l - 1 - k = m -> elem l k x -> x <= k) as Hup.
  { intros m k x Hm. revert k x. pattern m. apply natlike_ind; [| |exact Hm].
    - intros k x Hk Hx. apply (in_range_elem _ _ _ _ Hr) in Hx. lia.
    - intros j Hj IH k x Hk Hx. assert (0 <= k + 1 < zlen l) as Hkl by (apply elem_lt in Hx; lia). destruct (elem_ex l _ Hkl) as [y Hy].
      specialize (IH (k + 1) y ltac:(lia) Hy). specialize (Hi k (k + 1) x y Hx Hy ltac:(lia)). lia. }
  intros k x Hx. pose proof (elem_lt _ _ _ Hx). pose proof (Hlow k x ltac:(lia) Hx). pose proof (Hup (zlen l - 1 - k) k x ltac:(lia) eq_refl Hx). lia.
Qed.

(** *** one loop *)
Context (inaxes : list axis) (Hsep : separate inaxes) (Hgood : Forall good_axis inaxes)
        (gone : list bool) (Hgone : length gone = length inaxes).

Definition full_inds (inds : list (list Z)) : Prop :=
  Forall2 (fun a l => l <> [] /\ in_range (axis_len a) l /\ increasing l) inaxes inds /\
  (forall i a l, nth_error gone i = Some true -> nth_error inaxes i = Some a -> nth_error inds i = Some l -> l = arange 0 (axis_len a) 1).

Context (J : list (list Z)) (HJ : full_inds J).

Definition subs : list axis := map (fun '(a, l) => axis_take env a l) (combine inaxes J).
Let O := dropped gone subs.

Lemma J_len : length J = length inaxes.
Proof. destruct HJ as [H _]. apply Forall2_len in H. lia. Qed.
Lemma nth_subs i a l : nth_error inaxes i = Some a -> nth_error J i = Some l -> nth_error subs i = Some (axis_take env a l).
Proof. intros Ha Hl. unfold subs. now rewrite nth_error_map, nth_error_combine, Ha, Hl. Qed.
Lemma subs_nth i b : nth_error subs i = Some b -> exists a l, nth_error inaxes i = Some a /\ nth_error J i = Some l /\ b = axis_take env a l.
Proof.
  unfold subs. rewrite nth_error_map, nth_error_combine. destruct (nth_error inaxes i) as [a|]; [|discriminate]. destruct (nth_error J i) as [l|]; [|discriminate].
  intros [= <-]. eauto.
Qed.
Lemma J_good i a l : nth_error inaxes i = Some a -> nth_error J i = Some l -> good_axis a /\ l <> [] /\ in_range (axis_len a) l /\ increasing l /\ NoDup l.
Proof.
  intros Ha Hl. destruct HJ as [H _]. destruct (Forall2_nth_error _ _ _ _ _ _ H Ha Hl) as (H1 & H2 & H3).
  rewrite Forall_forall in Hgood. split; [apply Hgood; eapply nth_error_In, Ha|]. auto using increasing_NoDup.
Qed.
Lemma O_good : Forall good_axis O.
Proof.
  apply Forall_forall. intros b Hb. apply In_nth_error in Hb as [j Hb]. apply dropped_nth in Hb as (i & Hg & Hb & _).
  apply subs_nth in Hb as (a & l & Ha & Hl & ->). destruct (J_good _ _ _ Ha Hl) as (G & _ & Hr & _ & Hnd).
  eapply sliced_good; [exact G|exact Hr|exact Hnd|]. now apply sliced_self.
Qed.

Lemma clip_eq : clip env (view_of_inds (dropped gone inaxes) (dropped gone J)) = Some (view_of_inds O (map (fun a => arange 0 (axis_len a) 1) O)).
Proof.
  unfold clip. rewrite subaxes_eq.
  - unfold O, subs. rewrite full_view_eq. f_equal.
    assert (map (fun '(a, ind) => axis_take env a ind) (combine (dropped gone inaxes) (dropped gone J)) = dropped gone (map (fun '(a, l) => axis_take env a l) (combine inaxes J))) as ->; [|reflexivity].
    pose proof J_len as HL. revert HL. clear. revert J gone. induction inaxes as [|a axes IH]; intros [|l J] [|[] g] HL; cbn in *; try discriminate; try reflexivity.
    all: try (apply IH; lia); f_equal; apply IH; lia.
  - apply dropped_Forall2. destruct HJ as [H _]. eapply Forall2_impl; [|exact H]. cbn. tauto.
Qed.

Lemma O_derived i a l : nth_error gone i = Some false -> nth_error inaxes i = Some a -> nth_error J i = Some l ->
  derived O a (rank gone i, l).
Proof.
  intros Hg Ha Hl. destruct (J_good _ _ _ Ha Hl) as (G & _ & Hr & _ & _). split; [exact Hr|]. exists (axis_take env a l). split; [|split].
  - unfold O. cbn [fst]. rewrite nth_error_dropped by assumption. now apply nth_subs.
  - left. split; [exact G|]. cbn. now apply sliced_self.
  - cbn [fst]. intros j b Hj Hb. apply dropped_nth in Hb as (i' & Hg' & Hb & <-). apply subs_nth in Hb as (a' & l' & Ha' & Hl' & ->).
    apply take_unrelated. refine (Hsep i i' _ _ Ha Ha' _). intros ->. now apply Hj.
Qed.

Lemma inview_eq : exists order, map_to ops (view_of_inds O (map (fun a => arange 0 (axis_len a) 1) O)) inaxes false = Some (view_of_inds inaxes J, order).
Proof.
  assert (Forall2 (fun b l => in_range (axis_len b) l) O (map (fun a => arange 0 (axis_len a) 1) O)) as HO.
  { apply Forall2_map_r. apply Forall2_intro_nth; [reflexivity|]. intros i b b' Hb Hb'. rewrite Hb in Hb'. injection Hb' as <-. apply range_arange. }
  apply map_to_any. apply Forall2_intro_nth; [symmetry; apply J_len|]. intros i a l Ha Hl.
  destruct (nth_error gone i) as [[]|] eqn:Hg.
  - exists whole, None. split.
    + apply map_axis_other; [exact HO|]. intros b Hb. apply In_nth_error in Hb as [j Hb]. apply dropped_nth in Hb as (i' & Hg' & Hb & _).
      apply subs_nth in Hb as (a' & l' & Ha' & Hl' & ->). apply take_unrelated. apply (Hsep i i'); auto. congruence.
    + rewrite (proj2 HJ i a l Hg Ha Hl). reflexivity.
  - assert (nth_error (map (fun a => arange 0 (axis_len a) 1) O) (rank gone i) = Some (arange 0 (zlen l) 1)) as E.
    { rewrite nth_error_map. unfold O. rewrite nth_error_dropped by assumption. rewrite (nth_subs _ _ _ Ha Hl). cbn. f_equal. f_equal.
      destruct (J_good _ _ _ Ha Hl) as (G & _ & Hr & _ & _). eapply sliced_len; [exact G|]. now apply sliced_self. }
    pose proof (derived_mapped env Henv junk _ _ _ _ _ _ HO (O_derived _ _ _ Hg Ha Hl) E) as ((sl & H1 & H2) & _).
    cbn [fst snd] in *. rewrite znth_arange in H2. exists sl, (Some (rank gone i)). split; [now apply map_axis_strict|exact H2].
  - exfalso. apply nth_error_None in Hg. assert (i < length inaxes)%nat by (apply nth_error_Some; congruence). lia.
Qed.

Lemma outview_eq c se : cut J se c ->
  exists order, map_to ops (view_of_inds inaxes c) O true = Some (view_of_inds O (map (fun '(s, e) => arange s e 1) (dropped gone se)), order).
Proof.
  intros [Hlen Hc]. pose proof (Forall2_len _ _ _ Hc) as HcJ. rewrite combine_length, Hlen, Nat.min_id in HcJ. pose proof J_len as HJl.
  assert (forall i a, nth_error inaxes i = Some a -> exists l s e, nth_error J i = Some l /\ nth_error se i = Some (s, e) /\
            nth_error c i = Some (subrange l s e) /\ 0 <= s < e /\ e <= zlen l) as Hi.
  { intros i a Ha. assert (i < length inaxes)%nat as Hil by (apply nth_error_Some; congruence).
    destruct (nth_error J i) as [l|] eqn:El; [|apply nth_error_None in El; lia].
    destruct (nth_error se i) as [[s e]|] eqn:Ese; [|apply nth_error_None in Ese; lia].
    destruct (nth_error c i) as [ci|] eqn:Eci; [|apply nth_error_None in Eci; lia].
    pose proof (Forall2_nth_error _ _ _ i l ((s, e), ci) Hc El) as HH. rewrite nth_error_combine, Ese, Eci in HH. destruct (HH eq_refl) as (H1 & H2 & ->).
    exists l, s, e. auto. }
  assert (Forall2 (fun b l => in_range (axis_len b) l) inaxes c) as Hcr.
  { apply Forall2_intro_nth; [lia|]. intros i a ci Ha Hci. destruct (Hi i a Ha) as (l & s & e & El & Ese & Ec & H1 & H2).
    rewrite Ec in Hci. injection Hci as <-. destruct (J_good _ _ _ Ha El) as (_ & _ & Hr & _). apply (subr_range _ l); [exact Hr|]. exists s, e. auto. }
  apply map_to_any. rewrite <- dropped_map. apply dropped_intro; [unfold subs; rewrite !map_length, combine_length; lia|].
  intros i b l' Hg Hb Hl'. apply subs_nth in Hb as (a & l & Ha & El & ->). destruct (Hi i a Ha) as (l0 & s & e & El0 & Ese & Ec & H1 & H2).
  rewrite El in El0. injection El0 as <-. rewrite nth_error_map, Ese in Hl'. cbn in Hl'. injection Hl' as <-.
  destruct (J_good _ _ _ Ha El) as (G & Hne & Hr & Hinc & Hnd).
  pose proof (sliced_self env Henv a l G Hr) as Hself.
  assert (good_axis (axis_take env a l)) as G' by exact (sliced_good _ _ _ G Hr Hnd Hself).
  assert (axis_len (axis_take env a l) = zlen l) as Hbl by exact (sliced_len _ _ _ G Hself).
  assert (in_range (zlen l) (arange s e 1)) as Hrng.
  { apply Forall_forall. intros x Hx. apply In_elem in Hx as [k Hk]. apply elem_arange in Hk; lia. }
  assert (Forall (fun x => 0 <= x) (arange s e 1)) as Hnn by (eapply Forall_impl; [|exact Hrng]; cbn; lia).
  unfold map_axis. cbn [vaxes view_of_inds].
  destruct (axis_same (axis_take env a l) a) eqn:Es.
  - assert (zlen l = axis_len a) as Hll by (rewrite <- Hbl; apply same_len; auto).
    pose proof (full_increasing _ _ Hinc Hr Hll) as Hlar.
    rewrite (proj2 (find_first_spec _ inaxes i tt)).
    + cbn [vslices view_of_inds]. rewrite (nth_simplify _ _ _ Ec). exists (simplify (subrange l s e)), (Some i). split; [reflexivity|].
      assert (subrange l s e = arange s e 1) as ->.
      { rewrite subrange_map by lia. rewrite Hlar. apply arange_znth. now rewrite <- Hll. }
      now apply expand_simplify.
    + split; [exists a; split; [exact Ha|]; cbn; now rewrite Es|].
      intros j b' Hj Hb'. cbn. rewrite unrelated_same; [reflexivity|]. apply take_unrelated_l. apply (Hsep i j); auto. lia.
  - rewrite find_first_none.
    2:{ intros b' Hb'. apply In_nth_error in Hb' as [j Hb']. cbn [same axis_ops]. destruct (Nat.eq_dec j i) as [->|Hne'].
        - rewrite Ha in Hb'. injection Hb' as <-. now rewrite Es.
        - rewrite unrelated_same; [reflexivity|]. apply take_unrelated_l. apply (Hsep i j); auto. }
    rewrite subaxes_eq by exact Hcr.
    rewrite (proj2 (find_first_spec _ _ i (arange s e 1))).
    + exists (simplify (arange s e 1)), (Some i). split; [reflexivity|]. now apply expand_simplify.
    + split.
      * exists (axis_take env a (subrange l s e)). split; [now rewrite nth_error_map, nth_error_combine, Ha, Ec|].
        cbn [mapto axis_ops]. apply sliced_map; [exact Henv|exact G'|now rewrite Hbl|].
        assert (in_range (axis_len a) (subrange l s e)) as Hrs by (apply (subr_range _ l); [exact Hr|]; exists s, e; auto).
        pose proof (sliced_self env Henv a (subrange l s e) G Hrs) as Hs2.
        (* both are slices of a *)
        clear -Hself Hs2 Hr Hrng H1 H2 G.
        rewrite subrange_map in * by lia. remember (map (znth l) (arange s e 1)) as m.
        remember (axis_take env a l) as b. remember (axis_take env a m) as b2. clear Heqb Heqb2.
        destruct a as [ca|na|ta], b as [cb|nb|tb], b2 as [c2|n2|t2]; cbn in Hself, Hs2; try contradiction; cbn.
        -- destruct Hself as (E1 & E2 & E3 & E4 & E5 & E6 & E7), Hs2 as (F1 & F2 & F3 & F4 & F5 & F6 & F7). destruct G as (_ & Haux & _).
           rewrite E1, E2, E3, E4, E5, E6. repeat split; auto.
           ++ rewrite F5, Heqm. symmetry. apply pick_pick; assumption.
           ++ rewrite F6, Heqm. symmetry. eapply aux_pick_pick; eauto.
        -- destruct Hself as (E1 & E2 & E3), Hs2 as (F1 & F2 & F3). rewrite E1, E2, E3. repeat split; auto. rewrite F3, Heqm. symmetry. now apply pick_pick.
        -- destruct Hself as (E1 & E2 & E3 & E4 & E5 & E6 & E7), Hs2 as (F1 & F2 & F3 & F4 & F5 & F6 & F7). rewrite E1, E2, E3, E4, E5, E6, E7. repeat split; auto.
           ++ rewrite F6, Heqm. symmetry. now apply pick_pick.
           ++ rewrite F7, Heqm. symmetry. apply pick_pick; [|exact Hrng]. pose proof (time_length _ G) as HL. unfold zlen in *. now rewrite HL.
      * intros j b' Hj Hb'. rewrite nth_error_map, nth_error_combine in Hb'.
        destruct (nth_error inaxes j) as [a'|] eqn:Ea'; [|discriminate]. destruct (nth_error c j); [|discriminate]. cbn in Hb'. injection Hb' as <-.
        cbn [mapto axis_ops]. apply unrelated_map, take_unrelated, take_unrelated_l. apply (Hsep i j); auto. lia.
Qed.

Context (Ro : list (list Z) -> W -> Prop) (Rb : list (list Z) -> X -> Prop) (init : W) (comb : W -> X -> W)
        (vars : list var) (block : list (arr V) -> option (arr X))
        (Ro_perm : forall l l' w, Permutation l l' -> Ro l w -> Ro l' w)
        (Ro_init : Ro [] init)
        (Ro_comb : forall l1 w l2 b, Ro l1 w -> l2 <> [] -> Rb l2 b -> Ro (l1 ++ l2) (comb w b))
        (Hchunk : forall c, In c (loop_mem MAX J []) -> Forall2 (fun a l => l <> [] /\ in_range (axis_len a) l /\ increasing l) inaxes c ->
           exists data b b', sequence (map (fun x => get (view_of_inds inaxes c) x true true) vars) = Some data /\
             block data = Some b /\ broadcast b (map zlen (dropped gone c)) = Some b' /\
             forall p, position (map zlen (dropped gone c)) p -> Rb (product (fibl gone c (gather (dropped gone c) p))) (val b' p)).

Definition chunk_item (c : list (list Z)) (item : list sel * list (arr V)) : Prop :=
  exists se b b', cut J se c /\
    fst item = map (fun '(s, e) => simplify (arange s e 1)) (dropped gone se) /\
    block (snd item) = Some b /\ broadcast b (map zlen (dropped gone c)) = Some b' /\
    forall p, position (map zlen (dropped gone c)) p -> Rb (product (fibl gone c (gather (dropped gone c) p))) (val b' p).

Definition items (c : list (list Z)) (k : list Z) : list (list Z) := filter (fun q => zlist_eqb (dropped gone q) k) (product c).

Lemma loopover_items : exists its, loopover env junk MAX vars inaxes (view_of_inds (dropped gone inaxes) (dropped gone J)) [] = Some its /\
  Forall2 chunk_item (loop_mem MAX J []) its.
Proof.
  unfold loopover. rewrite clip_eq. destruct inview_eq as [order Hin]. rewrite Hin. cbn [vinds vaxes view_of_inds].
  assert (Forall (fun l => l <> []) J) as Hne.
  { apply Forall_forall. intros l Hl. destruct HJ as [H _]. apply (Forall2_In_r _ _ _ _ H) in Hl as (a & _ & H' & _). exact H'. }
  pose proof (loop_mem_subr MAX J [] HMAX Hne ltac:(constructor) ltac:(constructor)) as Hsub.
  assert (forall c, In c (loop_mem MAX J []) -> In c (loop_mem MAX J [])) as Hall by auto. revert Hall Hsub.
  generalize (loop_mem MAX J []) at 1 3 4 5. intros chunks. induction chunks as [|c chunks IH]; intros Hall Hsub; [exists []; split; constructor|].
  destruct IH as (its & Hits & HF); [intros; apply Hall; now right|intros; apply Hsub; now right|]. specialize (Hall c (or_introl eq_refl)).
  specialize (Hsub c (or_introl eq_refl)). destruct (subr_split J c Hsub) as (se & Hc).
  destruct (outview_eq c se Hc) as [o Ho].
  destruct (Hchunk c Hall) as (data & b & b' & Hd & Hb & Hb' & HR).
  { destruct HJ as [H _]. apply Forall2_intro_nth; [apply Forall2_len in H, Hsub; lia|]. intros i a ci Ha Hci.
    destruct (nth_error J i) as [l|] eqn:El; [|apply nth_error_None in El; assert (i < length inaxes)%nat by (apply nth_error_Some; congruence); pose proof J_len; lia].
    pose proof (Forall2_nth_error _ _ _ _ _ _ Hsub El Hci) as Hs. destruct (J_good _ _ _ Ha El) as (_ & _ & Hr & Hinc & _).
    split; [eapply subr_ne, Hs|]. split; [eapply subr_range; eassumption|eapply increasing_subr; eassumption]. }
  cbn [map sequence]. rewrite Ho, Hd. cbv zeta in Hits. rewrite Hits. eexists. split; [reflexivity|]. constructor; [|exact HF].
  exists se, b, b'. cbn [fst snd vslices view_of_inds]. rewrite map_map.
  split; [exact Hc|]. split; [apply map_ext; intros [s e]; reflexivity|]. split; [exact Hb|]. split; [exact Hb'|exact HR].
Qed.


Lemma J_NoDup : Forall (@NoDup Z) J.
Proof. apply Forall_forall. intros l Hl. destruct HJ as [H _]. apply (Forall2_In_r _ _ _ _ H) in Hl as (a & _ & _ & _ & H'). now apply increasing_NoDup. Qed.
Lemma J_ne : Forall (fun l => l <> []) J.
Proof. apply Forall_forall. intros l Hl. destruct HJ as [H _]. apply (Forall2_In_r _ _ _ _ H) in Hl as (a & _ & H' & _). exact H'. Qed.
Lemma Forall_dropped {A} (P : A -> Prop) g l : Forall P l -> Forall P (dropped g l).
Proof. intros H. apply Forall_forall. intros x Hx. apply dropped_In in Hx. rewrite Forall_forall in H. auto. Qed.

Lemma items_hit c se p : cut J se c -> position (map zlen (dropped gone J)) p -> hits (dropped gone se) p ->
  position (map zlen (dropped gone c)) (shifted_back (dropped gone se) p) /\
  gather (dropped gone c) (shifted_back (dropped gone se) p) = gather (dropped gone J) p /\
  items c (gather (dropped gone J) p) = product (fibl gone c (gather (dropped gone J) p)) /\ items c (gather (dropped gone J) p) <> [].
Proof.
  intros Hc Hp Hh. destruct (cut_hit J se c gone p Hc Hp Hh) as [H1 H2]. split; [exact H1|]. split; [exact H2|].
  pose proof (cut_subr J se c Hc) as Hsub. pose proof (Forall2_len _ _ _ Hsub) as Hlen.
  assert (length gone = length c) as Hgc by (pose proof J_len; lia).
  assert (Forall (@NoDup Z) c) as Hnd.
  { destruct HJ as [H _]. apply Forall_forall. intros ci Hci. apply (Forall2_In_r _ _ _ _ Hsub) in Hci as (l & Hl & Hs).
    apply (Forall2_In_r _ _ _ _ H) in Hl as (a & _ & _ & _ & Hinc). apply increasing_NoDup. eapply increasing_subr; eassumption. }
  assert (items c (gather (dropped gone J) p) = product (fibl gone c (gather (dropped gone J) p))) as E.
  { unfold items. apply filter_product; [exact Hgc|]. rewrite <- H2. apply gather_in; [exact H1|]. now apply Forall_dropped. }
  split; [exact E|]. rewrite E. apply fibl_ne; [|exact Hgc|].
  - apply Forall_forall. intros ci Hci. apply (Forall2_In_r _ _ _ _ Hsub) in Hci as (l & _ & Hs). eapply subr_ne, Hs.
  - rewrite <- H2, gather_length; apply Forall2_len in H1; rewrite map_length in H1; lia.
Qed.

Lemma items_miss c se p : cut J se c -> position (map zlen (dropped gone J)) p -> ~ hits (dropped gone se) p -> items c (gather (dropped gone J) p) = [].
Proof.
  intros Hc Hp Hn. unfold items. apply filter_product_none.
  { pose proof (cut_subr J se c Hc) as Hsub. apply Forall2_len in Hsub. pose proof J_len. lia. }
  intros HF. apply Hn. eapply cut_miss; eauto using J_NoDup.
Qed.

Theorem accumulate_spec : exists r, accumulate env junk MAX vars inaxes (view_of_inds (dropped gone inaxes) (dropped gone J)) init block comb = Some r /\
  shape r = map zlen (dropped gone J) /\
  forall p, position (map zlen (dropped gone J)) p -> Ro (product (fibl gone J (gather (dropped gone J) p))) (val r p).
Proof.
  unfold accumulate. destruct loopover_items as (its & -> & HF).
  change (vshape (view_of_inds (dropped gone inaxes) (dropped gone J))) with (map zlen (dropped gone J)).
  assert (forall done (o : arr W) chunks its, Forall2 chunk_item chunks its -> shape o = map zlen (dropped gone J) ->
    (forall p, position (map zlen (dropped gone J)) p -> Ro (flat_map (fun c => items c (gather (dropped gone J) p)) done) (val o p)) ->
    exists r, fold_left (fun out '(sl, data) => match out with Some out => match block data with Some b => update comb out sl b | None => None end | None => None end) its (Some o) = Some r /\
      shape r = map zlen (dropped gone J) /\
      forall p, position (map zlen (dropped gone J)) p -> Ro (flat_map (fun c => items c (gather (dropped gone J) p)) (done ++ chunks)) (val r p)) as Hfold.
  { intros done o chunks its0 H. revert done o. induction H as [|c [sl data] chunks its' Hitem H IH]; intros done o Ho HR.
    - exists o. rewrite app_nil_r. auto.
    - destruct Hitem as (se & b & b' & Hc & Hsl & Hb & Hb' & HRb). cbn [fst snd] in Hsl, Hb. subst sl. cbn [fold_left]. rewrite Hb.
      destruct (cut_shapes J se c gone Hc) as [Hz Hin].
      destruct (update_spec comb o b b' (dropped gone se)) as (r & Hr & Hrs & Hrv).
      { rewrite Ho. now apply Forall2_len in Hin. } { now rewrite Ho. } { now rewrite Hz. }
      rewrite Hr. destruct (IH (done ++ [c]) r) as (r' & Hr' & Hs' & Hv').
      + congruence.
      + intros p Hp. rewrite flat_map_app. cbn [flat_map]. rewrite app_nil_r. rewrite Ho in Hrv. destruct (Hrv p Hp) as [Hhit Hmiss].
        destruct (hits_dec (dropped gone se) p) as [Hh|Hh].
        * rewrite (Hhit Hh). destruct (items_hit c se p Hc Hp Hh) as (B1 & B2 & B3 & B4). apply Ro_comb; auto.
          rewrite B3. rewrite <- B2. now apply HRb.
        * rewrite (Hmiss Hh). rewrite (items_miss c se p Hc Hp Hh), app_nil_r. now apply HR.
      + exists r'. split; [exact Hr'|]. split; [exact Hs'|]. intros p Hp. specialize (Hv' p Hp). rewrite <- app_assoc in Hv'. exact Hv'. }
  destruct (Hfold [] (Arr (map zlen (dropped gone J)) (fun _ => init)) _ _ HF eq_refl) as (r & Hr & Hs & Hv).
  { intros p Hp. exact Ro_init. }
  exists r. split; [exact Hr|]. split; [exact Hs|]. intros p Hp. apply (Ro_perm (flat_map (fun c => items c (gather (dropped gone J) p)) ([] ++ loop_mem MAX J []))); [|now apply Hv].
  cbn [app]. unfold items. rewrite <- filter_flat_map.
  destruct (loop_mem_spec MAX J [] HMAX J_ne ltac:(constructor) ltac:(constructor)) as [Hperm _].
  rewrite (filter_perm _ _ _ Hperm). rewrite filter_product; [reflexivity|pose proof J_len; lia|].
  apply gather_in; [exact Hp|]. apply Forall_dropped, J_NoDup.
Qed.
End Loop.
