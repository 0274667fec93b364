(** Linear interpolation. *)
From Coq Require Import ZArith List Bool Lia QArith_base Qcanon Sorting.Sorted.
From Verif Require Import SortSpec IndexModel IndexSpec IndexProofs NumModel StencilLemmas SmoothModel SmoothSpec InterpModel InterpSpec InterpProofs.
Import ListNotations.
Open Scope Z_scope.

Lemma sorted_rising pts : (forall i j a b, nth_error pts i = Some a -> nth_error pts j = Some b -> (i < j)%nat -> (fst a < fst b)%Qc) -> StronglySorted rising pts.
Proof.
  induction pts as [|a pts IH]; intros H; [constructor|]. constructor.
  - apply IH. intros i j b c Hb Hc Hij. apply (H (S i) (S j) b c Hb Hc). lia.
  - apply Forall_forall. intros b Hb. apply In_nth_error in Hb as [j Hj]. apply (H 0%nat (S j) a b eq_refl Hj). lia.
Qed.
Lemma linear_accepts : accepts gsl_linear.
Proof.
  split; [cbn; lia|]. intros pts H _. apply sorted_rising in H. cbn [gsl_init gsl_linear].
  induction H as [|[p v] pts H IH HF]; [reflexivity|]. destruct pts as [|[q w] pts]; [reflexivity|]. cbn [fins2 map ascending fst ltb].
  inversion HF as [|? ? H1 _]; subst. unfold rising in H1. cbn [fst] in H1. rewrite (proj2 (qc_ltb_spec p q) H1). exact IH.
Qed.

Lemma lt_nonzero p q : (p < q)%Qc -> (q - p)%Qc <> 0%Qc.
Proof. intros H E. apply Qclt_minus_iff in H. unfold Qcminus in E. rewrite E in H. exact (Qclt_not_le _ _ H (Qcle_refl _)). Qed.
Lemma chord_fin p v p' v' s : (p < p')%Qc ->
  add (Fin v) (mul (div (sub (Fin s) (Fin p)) (sub (Fin p') (Fin p))) (sub (Fin v') (Fin v))) = Fin (v + (s - p) / (p' - p) * (v' - v))%Qc.
Proof. intros H. rewrite !sub_fin, div_fin by (now apply lt_nonzero). reflexivity. Qed.

Lemma linear_cons x0 y0 x1 y1 c r x : linear_value ((x0, y0) :: (x1, y1) :: c :: r) x =
  if ltb x x1 then add y0 (mul (div (sub x x0) (sub x1 x0)) (sub y1 y0)) else linear_value ((x1, y1) :: c :: r) x.
Proof. reflexivity. Qed.
Lemma linear_between P : StronglySorted rising P -> forall i p v p' v' s, nth_error P i = Some (p, v) -> nth_error P (S i) = Some (p', v') -> (p <= s)%Qc -> (s <= p')%Qc ->
  linear_value (fins2 P) (Fin s) = Fin (v + (s - p) / (p' - p) * (v' - v))%Qc.
Proof.
  induction 1 as [|[x0 y0] P HS IH HF]; intros i p v p' v' s Hi Hi' H1 H2; [destruct i; discriminate|].
  destruct P as [|[x1 y1] rest]; [destruct i; discriminate|].
  assert (x0 < x1)%Qc as H01 by (inversion HF; assumption).
  destruct i as [|i].
  - cbn in Hi, Hi'. injection Hi as -> ->. injection Hi' as -> ->. destruct rest as [|[x2 y2] rest].
    + cbn [fins2 map linear_value]. now apply chord_fin.
    + unfold fins2. cbn [map]. rewrite linear_cons.
      destruct (ltb (Fin s) (Fin p')) eqn:E; [now apply chord_fin|]. cbn [ltb] in E. apply qc_ltb_false in E. assert (s = p') as -> by (apply Qcle_antisym; assumption).
      assert (p' < x2)%Qc as H12 by (inversion HS as [|? ? _ HF']; inversion HF'; assumption).
      fold (fins2 rest). change ((Fin p', Fin v') :: (Fin x2, Fin y2) :: fins2 rest) with (fins2 ((p', v') :: (x2, y2) :: rest)).
      rewrite (IH 0%nat p' v' x2 y2 p' eq_refl eq_refl); [|apply Qcle_refl|apply Qclt_le_weak; exact H12].
      f_equal. assert ((p' - p')%Qc = 0%Qc) as -> by ring. unfold Qcdiv at 1. rewrite (Qcmult_comm 0), Qcmult_0_r, (Qcmult_comm 0), Qcmult_0_r, Qcplus_0_r.
      unfold Qcdiv. rewrite Qcmult_inv_r by (now apply lt_nonzero). ring.
  - cbn [nth_error] in Hi. change (nth_error ((x0, y0) :: (x1, y1) :: rest) (S (S i))) with (nth_error ((x1, y1) :: rest) (S i)) in Hi'.
    destruct rest as [|[x2 y2] rest]; [destruct i; discriminate|].
    unfold fins2. cbn [map]. rewrite linear_cons.
    assert (x1 <= p)%Qc as H1p.
    { destruct i as [|i]; [injection Hi as -> ->; apply Qcle_refl|]. apply Qclt_le_weak. exact (sorted_nth rising _ HS 0%nat (S i) (x1, y1) (p, v) eq_refl Hi ltac:(lia)). }
    cbn [ltb]. rewrite (proj2 (qc_ltb_false s x1)) by (now apply (Qcle_trans _ p)). exact (IH i p v p' v' s Hi Hi' H1 H2).
Qed.
Lemma linear_node P : StronglySorted rising P -> (2 <= length P)%nat -> forall i p v, nth_error P i = Some (p, v) -> linear_value (fins2 P) (Fin p) = Fin v.
Proof.
  intros HS Hl i p v Hi. assert (i < length P)%nat as Hil by (apply nth_error_Some; congruence).
  destruct (Nat.eq_dec (S i) (length P)) as [E|E].
  - destruct i as [|i]; [lia|]. destruct (nth_error P i) as [[q w]|] eqn:Eq; [|apply nth_error_None in Eq; lia].
    assert (q < p)%Qc as Hqp by (exact (sorted_nth rising _ HS i (S i) (q, w) (p, v) Eq Hi ltac:(lia))).
    rewrite (linear_between P HS i q w p v p Eq Hi) by (try apply Qcle_refl; now apply Qclt_le_weak). f_equal. unfold Qcdiv. rewrite Qcmult_inv_r by (now apply lt_nonzero). ring.
  - destruct (nth_error P (S i)) as [[q w]|] eqn:Eq; [|apply nth_error_None in Eq; lia].
    assert (p < q)%Qc as Hpq by (exact (sorted_nth rising _ HS i (S i) (p, v) (q, w) Hi Eq ltac:(lia))).
    rewrite (linear_between P HS i p v q w p Hi Eq) by (try apply Qcle_refl; now apply Qclt_le_weak). f_equal. unfold Qcdiv. assert ((p - p)%Qc = 0%Qc) as -> by ring. ring.
Qed.
Lemma linear_nan P : linear_value P NaN = NaN.
Proof.
  assert (forall a y, add y (mul (div NaN a) y) = NaN) as H by (intros a y; destruct a, y; reflexivity).
  induction P as [|[x0 y0] P IH]; [reflexivity|]. destruct P as [|[x1 y1] rest]; [reflexivity|]. cbn [linear_value].
  destruct rest; [|cbn [ltb]; exact IH]. destruct y0, (sub x1 x0); reflexivity.
Qed.

Lemma linear_chord up n x y below above P t w : monotone up n x -> the_points n x y P -> by_library gsl_linear below above P t w -> chord n x y below above t w.
Proof.
  intros Hm [HP1 HP2] Hw. pose proof (sorted_rising P HP2) as HS. unfold by_library in Hw. cbn [min_size gsl_value gsl_linear] in Hw.
  assert (forall p v q u i j, nth_error P i = Some (p, v) -> nth_error P j = Some (q, u) -> (p <= q)%Qc -> (i <= j)%nat) as Hle.
  { intros p v q u i j Hi Hj Hpq. destruct (Nat.le_gt_cases i j); [assumption|]. exfalso. pose proof (HP2 j i _ _ Hj Hi ltac:(lia)) as K. cbn in K. exact (Qclt_not_le _ _ K Hpq). }
  assert (forall i p v, nth_error P i = Some (p, v) -> (i < length P)%nat) as Hin by (intros i p v Hi; apply nth_error_Some; congruence).
  assert (forall i j p v p' v', point n x y i p v -> point n x y j p' v' -> i <> j -> p <> p') as Hdist.
  { intros i j p v p' v' (Hi & Hx & _) (Hj & Hx' & _) Hne E. subst p'. destruct (Z.lt_ge_cases i j).
    - pose proof (Hm i j p p ltac:(lia) ltac:(lia) ltac:(lia) Hx Hx') as K. destruct up; exact (Qclt_not_le _ _ K (Qcle_refl _)).
    - pose proof (Hm j i p p ltac:(lia) ltac:(lia) ltac:(lia) Hx' Hx) as K. destruct up; exact (Qclt_not_le _ _ K (Qcle_refl _)). }
  assert (forall p v p' v', In (p, v) P -> In (p', v') P -> p <> p' -> (2 <= length P)%nat /\ 2 <= zlen P) as Htwo.
  { intros p v p' v' H1 H2 Hne. apply In_nth_error in H1 as [i Hi], H2 as [j Hj]. assert (i <> j) as K by (intros ->; congruence). pose proof (Hin _ _ _ Hi). pose proof (Hin _ _ _ Hj). unfold zlen. lia. }
  assert ((2 <= length P)%nat -> exists p v p' v', nth_error P 0 = Some (p, v) /\ nth_error P (length P - 1) = Some (p', v') /\ (zlen P <? 2) = false) as Hends.
  { intros H. destruct (nth_error P 0) as [[p v]|] eqn:E0; [|apply nth_error_None in E0; lia]. destruct (nth_error P (length P - 1)) as [[p' v']|] eqn:E1; [|apply nth_error_None in E1; lia].
    exists p, v, p', v'. repeat (split; [reflexivity|]). apply Z.ltb_ge. unfold zlen. lia. }
  split; [|split; [|split; [|split]]].
  - intros i j p v p' v' s Hi Hj Hpp Hno -> Hs Hs'. assert (In (p, v) P) as Hp by (apply HP1; eauto). assert (In (p', v') P) as Hp' by (apply HP1; eauto).
    destruct (Htwo p v p' v' Hp Hp') as [Hl _]. { intros ->. exact (Qclt_not_le _ _ Hpp (Qcle_refl _)). }
    destruct (Hends Hl) as (a & av & b & bv & Ha & Hb & E). rewrite E in Hw. destruct (Hw a av b bv Ha Hb) as (_ & _ & Hw3). clear Hw.
    apply In_nth_error in Hp as [k Hk], Hp' as [k' Hk'].
    assert (k' = S k) as ->.
    { assert (k < k')%nat as Hkk. { pose proof (Hle p v p' v' k k' Hk Hk' (Qclt_le_weak _ _ Hpp)). assert (k <> k'); [|lia]. intros ->. rewrite Hk in Hk'. injection Hk' as -> ->. exact (Qclt_not_le _ _ Hpp (Qcle_refl _)). }
      destruct (Nat.eq_dec k' (S k)) as [|Hne]; [assumption|exfalso]. destruct (nth_error P (S k)) as [[r u]|] eqn:Er; [|apply nth_error_None in Er; pose proof (Hin _ _ _ Hk'); lia].
      pose proof (HP2 k (S k) _ _ Hk Er ltac:(lia)) as K1. pose proof (HP2 (S k) k' _ _ Er Hk' ltac:(lia)) as K2. cbn in K1, K2.
      apply nth_error_In in Er. apply HP1 in Er as (m & Hmp). destruct (Hno m r u Hmp) as [K|K]; [exact (Qclt_not_le _ _ K1 K)|exact (Qclt_not_le _ _ K2 K)]. }
    rewrite Hw3.
    + now apply (linear_between P HS k).
    + cbn [ltb]. apply qc_ltb_false. apply (Qcle_trans _ p); [|exact Hs]. destruct k as [|k]; [rewrite Ha in Hk; injection Hk as -> ->; apply Qcle_refl|]. apply Qclt_le_weak. exact (HP2 0%nat (S k) _ _ Ha Hk ltac:(lia)).
    + cbn [ltb]. apply qc_ltb_false. apply (Qcle_trans _ p'); [exact Hs'|]. destruct (Nat.eq_dec (S k) (length P - 1)) as [Ek|Ek]; [rewrite Ek, Hb in Hk'; injection Hk' as -> ->; apply Qcle_refl|].
      apply Qclt_le_weak. pose proof (Hin _ _ _ Hk'). exact (HP2 (S k) _ _ _ Hk' Hb ltac:(lia)).
  - intros i j p v p' v' Hi Hj Hne Hleast Ht. assert (In (p, v) P) as Hp by (apply HP1; eauto). assert (In (p', v') P) as Hp' by (apply HP1; eauto).
    destruct (Htwo p v p' v' Hp Hp' (Hdist _ _ _ _ _ _ Hi Hj Hne)) as [Hl _]. destruct (Hends Hl) as (a & av & b & bv & Ha & Hb & E). rewrite E in Hw. destruct (Hw a av b bv Ha Hb) as (Hw1 & _ & _). clear Hw.
    apply In_nth_error in Hp as [k Hk]. assert (k = 0)%nat as ->.
    { pose proof (nth_error_In _ _ Ha) as Hia. apply HP1 in Hia as (m & Hma). specialize (Hleast m a av Hma). pose proof (Hle _ _ _ _ _ _ Hk Ha Hleast). lia. }
    rewrite Ha in Hk. injection Hk as -> ->. rewrite (Hw1 Ht). now rewrite (linear_node P HS Hl 0%nat p v Ha).
  - intros i j p v p' v' Hi Hj Hne Hgreat Ht. assert (In (p, v) P) as Hp by (apply HP1; eauto). assert (In (p', v') P) as Hp' by (apply HP1; eauto).
    destruct (Htwo p v p' v' Hp Hp' (Hdist _ _ _ _ _ _ Hi Hj Hne)) as [Hl _]. destruct (Hends Hl) as (a & av & b & bv & Ha & Hb & E). rewrite E in Hw. destruct (Hw a av b bv Ha Hb) as (_ & Hw2 & _). clear Hw.
    apply In_nth_error in Hp as [k Hk]. assert (k = length P - 1)%nat as ->.
    { pose proof (nth_error_In _ _ Hb) as Hib. apply HP1 in Hib as (m & Hmb). specialize (Hgreat m b bv Hmb). pose proof (Hle _ _ _ _ _ _ Hb Hk Hgreat). pose proof (Hin _ _ _ Hk). lia. }
    rewrite Hb in Hk. injection Hk as -> ->. rewrite (Hw2 Ht). now rewrite (linear_node P HS Hl _ p v Hb).
  - intros Hfew. destruct (Z.ltb_spec (zlen P) 2) as [|Hl]; [exact Hw|exfalso]. unfold zlen in Hl.
    destruct (nth_error P 0) as [[p v]|] eqn:E0; [|apply nth_error_None in E0; lia]. destruct (nth_error P 1) as [[p' v']|] eqn:E1; [|apply nth_error_None in E1; lia].
    pose proof (HP2 0%nat 1%nat _ _ E0 E1 ltac:(lia)) as K. cbn in K. apply nth_error_In, HP1 in E0 as (i & Hi). apply nth_error_In, HP1 in E1 as (j & Hj).
    pose proof (Hfew _ _ _ _ _ _ Hi Hj) as ->. destruct Hi as (_ & Hi & _), Hj as (_ & Hj & _). rewrite Hi in Hj. injection Hj as ->. exact (Qclt_not_le _ _ K (Qcle_refl _)).
  - intros ->. destruct (Z.ltb_spec (zlen P) 2) as [|Hl]; [exact Hw|]. destruct Hends as (a & av & b & bv & Ha & Hb & _); [unfold zlen in Hl; lia|].
    destruct (Hw a av b bv Ha Hb) as (_ & _ & Hw3). rewrite Hw3 by reflexivity. apply linear_nan.
Qed.
