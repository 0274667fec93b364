(** The formulas of correlation and regression on a list of points. *)
From Coq Require Import ZArith List Bool Lia QArith_base Qcanon Field Setoid.
From Verif Require Import SortSpec IndexSpec NumModel NumProofs ReduceModel ReduceSpec StatProofs ClimSpec ClimLine RegressModel RegressSpec.
Import ListNotations.
Notation zlen := IndexSpec.zlen.

Definition prods (l : list (Qc * Qc)) : list Qc := map (fun p => (fst p * snd p)%Qc) l.
Definition sums_of (l : list (Qc * Qc)) : sums :=
  Sums (Fin (total (map fst l))) (Fin (total (map snd l))) (Fin (total (squares (map fst l)))) (Fin (total (squares (map snd l)))) (Fin (total (prods l))) (num_of_Z (zlen l)).

Section Pure.
Local Open Scope Qc_scope.
Lemma count_pos {A} (l : list A) : l <> [] -> Q2Qc 0 < Q2Qc (inject_Z (zlen l)).
Proof. intros H. apply (qz_lt 0 (zlen l)). unfold zlen. destruct l; [congruence|]. cbn [length]. lia. Qed.
Lemma pos_ne q : Q2Qc 0 < q -> q <> Q2Qc 0.
Proof. intros H ->. exact (Qclt_not_eq _ _ H eq_refl). Qed.
Lemma count_map (l : list (Qc * Qc)) (f : Qc * Qc -> Qc) : count (map f l) = Q2Qc (inject_Z (zlen l)).
Proof. unfold count, zlen. now rewrite map_length. Qed.

Lemma spread_eq l : l <> [] -> spread l = total (squares l) - total l * total l / count l.
Proof.
  intros H. unfold spread. rewrite deviations. unfold average. pose proof (count_ne l H). field. assumption.
Qed.
Lemma joint_dev (l : list (Qc * Qc)) a b : total (map (fun '(x, y) => (x - a) * (y - b)) l)
  = total (prods l) - a * total (map snd l) - b * total (map fst l) + count (map fst l) * (a * b).
Proof.
  induction l as [|[x y] l IH]; [unfold count, prods; cbn [map]; change (total []) with (Q2Qc 0); change (Q2Qc (inject_Z (zlen (@nil Qc)))) with (Q2Qc 0); ring|]. unfold prods in *. cbn [map fst snd]. rewrite !total_cons, IH, count_cons. ring.
Qed.
Lemma joint_eq (l : list (Qc * Qc)) : l <> [] -> joint_spread l = total (prods l) - total (map fst l) * total (map snd l) / Q2Qc (inject_Z (zlen l)).
Proof.
  intros H. unfold joint_spread. rewrite joint_dev. unfold average. rewrite !count_map. pose proof (pos_ne _ (count_pos l H)). field. assumption.
Qed.
Lemma spread_nonneg l : Q2Qc 0 <= spread l.
Proof. apply squares_nonneg. Qed.
Lemma same_spread l : ~ differ l -> spread l = Q2Qc 0.
Proof.
  intros H. destruct l as [|q l]; [reflexivity|]. set (L := q :: l) in *.
  assert (forall p, In p L -> p = q) as E by (intros p Hp; destruct (Qc_eq_dec p q) as [|Hne]; [assumption|exfalso; apply H; exists p, q; repeat split; [exact Hp|now left|exact Hne]]).
  assert (average L = q) as Ea.
  { unfold average. assert (total L = count L * q) as ->; [|field; apply count_ne; discriminate]. clearbody L. clear H. induction L as [|r L IH]; [unfold count; change (total []) with (Q2Qc 0); change (Q2Qc (inject_Z (zlen (@nil Qc)))) with (Q2Qc 0); ring|].
    rewrite total_cons, count_cons, IH by (intros p Hp; apply E; now right). rewrite (E r) by now left. ring. }
  unfold spread. rewrite Ea. assert (forall M, incl M L -> total (squares (map (fun r => r - q) M)) = Q2Qc 0) as K; [|apply K, incl_refl].
  induction M as [|r M IH]; intros HM; [reflexivity|]. unfold squares in *. cbn [map]. rewrite total_cons, IH by (intros z Hz; apply HM; now right). rewrite (E r) by (apply HM; now left). ring.
Qed.
Lemma differ_spread l : differ l -> Q2Qc 0 < spread l.
Proof.
  intros (p & q & Hp & Hq & Hne). destruct (Qcle_lt_or_eq _ _ (spread_nonneg l)) as [|E]; [assumption|exfalso]. symmetry in E. apply Hne.
  pose proof (squares_zero _ E (p - average l) ltac:(apply in_map_iff; now exists p)) as E1. pose proof (squares_zero _ E (q - average l) ltac:(apply in_map_iff; now exists q)) as E2.
  transitivity (p - average l + average l); [ring|]. rewrite E1, <- E2. ring.
Qed.
Lemma differ_ltb l : (qc_ltb (Q2Qc 0) (spread l) = true <-> differ l) /\ (qc_ltb (Q2Qc 0) (spread l) = false <-> ~ differ l).
Proof.
  assert (qc_ltb (Q2Qc 0) (spread l) = true -> differ l) as K.
  { rewrite qc_ltb_lt. intros H. destruct (qc_ltb (Q2Qc 0) (spread l)) eqn:E.
    - assert (~ ~ differ l) as N by (intros N; apply same_spread in N; rewrite N in H; exact (Qclt_not_eq _ _ H eq_refl)).
      assert ({differ l} + {~ differ l}) as [D|D]; [|exact D|tauto]. clear.
      destruct l as [|q l]; [right; intros (p & ? & [] & _)|].
      destruct (Exists_dec (fun p => p <> q) l) as [D|D].
      + intros p. destruct (Qc_eq_dec p q); [now right|now left].
      + left. apply Exists_exists in D as (p & Hp & Hne). exists p, q. repeat split; [now right|now left|exact Hne].
      + right. intros (p & r & Hp & Hr & Hne). assert (forall z, In z (q :: l) -> z = q) as E.
        { intros z [->|Hz]; [reflexivity|]. destruct (Qc_eq_dec z q); [assumption|exfalso; apply D, Exists_exists; eauto]. }
        apply Hne. now rewrite (E p Hp), (E r Hr).
    - apply qc_ltb_ge in E. destruct (Qcle_not_lt _ _ E H). }
  assert (differ l -> qc_ltb (Q2Qc 0) (spread l) = true) as K' by (intros H; apply qc_ltb_lt; now apply differ_spread).
  split; [tauto|]. split; [intros E H; apply K' in H; congruence|]. intros H. destruct (qc_ltb (Q2Qc 0) (spread l)); [exfalso; tauto|reflexivity].
Qed.

(** the line *)
Lemma error_sums (l : list (Qc * Qc)) a b : squared_error l a b =
  total (squares (map snd l)) - (a + a) * total (map snd l) - (b + b) * total (prods l) + Q2Qc (inject_Z (zlen l)) * (a * a) + (a * b + a * b) * total (map fst l) + b * b * total (squares (map fst l)).
Proof.
  unfold squared_error, prods, squares. induction l as [|[x y] l IH]; [cbn [map]; change (total []) with (Q2Qc 0); change (Q2Qc (inject_Z (zlen (@nil (Qc * Qc))))) with (Q2Qc 0); ring|]. cbn [map fst snd]. rewrite !total_cons, IH, cnt_cons. ring.
Qed.
Section Fit.
Context (l : list (Qc * Qc)) (Hne : l <> []) (Hd : differ (map fst l)).
Definition slope : Qc := joint_spread l / spread (map fst l).
Definition offset : Qc := (total (map snd l) - slope * total (map fst l)) / Q2Qc (inject_Z (zlen l)).
Lemma spread_times' : count (map fst l) * total (squares (map fst l)) - total (map fst l) * total (map fst l) = count (map fst l) * spread (map fst l).
Proof.
  rewrite spread_eq by (intros E; apply map_eq_nil in E; contradiction). field. rewrite count_map. apply pos_ne, count_pos, Hne.
Qed.
Lemma the_line : best_line l offset slope.
Proof.
  destruct Hd as (p & q & Hp & Hq & Hpq). apply in_map_iff in Hp as (i & <- & Hi), Hq as (j & <- & Hj).
  pose proof (least_line l i j Hi Hj Hpq) as K.
  pose proof (pos_ne _ (count_pos l Hne)) as Hn. pose proof (pos_ne _ (differ_spread _ Hd)) as Hs.
  assert (spread (map fst l) = total (squares (map fst l)) - total (map fst l) * total (map fst l) / Q2Qc (inject_Z (zlen l))) as Es.
  { rewrite spread_eq by (intros E; apply map_eq_nil in E; contradiction). now rewrite count_map. }
  set (n := Q2Qc (inject_Z (zlen l))) in *. set (sx := total (map fst l)) in *. set (sy := total (map snd l)) in *.
  set (sxx := total (squares (map fst l))) in *. set (sxy := total (prods l)).
  assert (n * sxx - sx * sx <> Q2Qc 0) as Hnz.
  { intros E. assert (n * spread (map fst l) = Q2Qc 0) as E' by (rewrite Es; rewrite <- E; field; exact Hn). apply Qcmult_integral in E'. tauto. }
  assert (slope = (n * sxy - sx * sy) / (n * sxx - sx * sx)) as E1.
  { unfold slope. rewrite Es, joint_eq by exact Hne. fold n sx sy sxy. field. split; [exact Hnz|exact Hn]. }
  assert (offset = (sxx * sy - sx * sxy) / (n * sxx - sx * sx)) as E2.
  { unfold offset. rewrite E1. fold n sx sy. field. split; [exact Hnz|exact Hn]. }
  rewrite E1, E2. replace sxy with (total (map (fun '(s, f) => s * f) l)); [exact K|]. unfold sxy, prods. f_equal. apply map_ext. now intros [].
Qed.
Lemma the_error : squared_error l offset slope = spread (map snd l) - slope * joint_spread l.
Proof.
  pose proof (pos_ne _ (count_pos l Hne)) as Hn. pose proof (pos_ne _ (differ_spread _ Hd)) as Hs.
  assert (spread (map fst l) = total (squares (map fst l)) - total (map fst l) * total (map fst l) / Q2Qc (inject_Z (zlen l))) as Es.
  { rewrite spread_eq by (intros E; apply map_eq_nil in E; contradiction). now rewrite count_map. }
  assert (slope * spread (map fst l) = joint_spread l) as Eb by (unfold slope; field; exact Hs).
  rewrite error_sums. rewrite (spread_eq (map snd l)) by (intros E; apply map_eq_nil in E; contradiction). rewrite count_map.
  rewrite (joint_eq l Hne) in Eb |- *. unfold offset. set (b := slope) in *. clearbody b.
  set (n := Q2Qc (inject_Z (zlen l))) in *. set (sx := total (map fst l)) in *. set (sy := total (map snd l)) in *.
  set (sxx := total (squares (map fst l))) in *. set (sxy := total (prods l)) in *. set (syy := total (squares (map snd l))) in *.
  rewrite Es in Eb. clearbody n sx sy sxx sxy syy. clear Es Hs.
  assert (sxy = b * (sxx - sx * sx / n) + sx * sy / n) as -> by (rewrite Eb; ring). field. exact Hn.
Qed.
Lemma error_nonneg a b : Q2Qc 0 <= squared_error l a b.
Proof.
  unfold squared_error. clear. induction l as [|[x y] r IH]; [apply Qcle_refl|]. cbn [map]. rewrite total_cons.
  rewrite <- (Qcplus_0_r (Q2Qc 0)). apply Qcplus_le_compat; [apply square_nonneg|exact IH].
Qed.
(** Cauchy-Schwarz *)
Lemma joint_bound : joint_spread l * joint_spread l <= spread (map fst l) * spread (map snd l).
Proof.
  pose proof (error_nonneg offset slope) as E. rewrite the_error in E. pose proof (differ_spread _ Hd) as Hs. pose proof (pos_ne _ Hs) as Hs'.
  apply Qcle_minus_iff. assert (spread (map fst l) * spread (map snd l) + - (joint_spread l * joint_spread l) = (spread (map snd l) - slope * joint_spread l) * spread (map fst l)) as ->.
  { unfold slope. field. exact Hs'. }
  rewrite <- (Qcmult_0_l (spread (map fst l))). apply Qcmult_le_compat_r; [exact E|now apply Qclt_le_weak].
Qed.
End Fit.
End Pure.

(** *** the formulas *)
Lemma mul_fin p q : mul (Fin p) (Fin q) = Fin (p * q)%Qc.
Proof. reflexivity. Qed.
Lemma ltb_fin p q : ltb (Fin p) (Fin q) = qc_ltb p q.
Proof. reflexivity. Qed.
Lemma count_ltb' {A} (l : list A) : ltb zero (num_of_Z (zlen l)) = match l with [] => false | _ => true end.
Proof.
  unfold zero, num_of_Z. rewrite ltb_fin. change (Q2Qc 0) with (Q2Qc (inject_Z 0)). rewrite qz_ltb. destruct l; [reflexivity|]. apply Z.ltb_lt. unfold zlen. cbn [length]. lia.
Qed.
Lemma map_ne {A B} (f : A -> B) l : l <> [] -> map f l <> [].
Proof. intros H E. apply map_eq_nil in E. contradiction. Qed.
Lemma differ_ne l : differ l -> l <> [].
Proof. intros (p & q & Hp & _) ->. destruct Hp. Qed.

Section Formulas.
Context (sqrt : num -> num) (cdf : num -> num -> num).

Theorem fit_of_spec N_fac l : (forall f, N_fac = Some f -> (Q2Qc 0 < f)%Qc) -> regression sqrt cdf N_fac l (fit_of sqrt cdf (option_map Fin N_fac) (sums_of l)).
Proof.
  intros Hf. unfold sums_of, fit_of.
  assert ((match option_map Fin N_fac with None => num_of_Z (zlen l) | Some f => div (num_of_Z (zlen l)) f end)
          = Fin (Q2Qc (inject_Z (zlen l)) / match N_fac with Some f => f | None => 1 end)%Qc) as EN.
  { destruct N_fac as [f|]; cbn [option_map].
    - unfold num_of_Z. apply div_fin. apply pos_ne, Hf. reflexivity.
    - unfold num_of_Z. f_equal. field. intros E. discriminate. }
  rewrite EN. clear EN. unfold two, num_of_Z. rewrite sub_fin. change (Q2Qc (inject_Z (zlen l)) / match N_fac with Some f => f | None => 1 end - Q2Qc (inject_Z 2))%Qc with (freedom N_fac l).
  assert ((Q2Qc 0 < freedom N_fac l)%Qc -> l <> []) as Hpos.
  { intros H ->. unfold freedom in H. assert (Q2Qc 0 / match N_fac with Some f => f | None => 1 end = Q2Qc 0)%Qc as E by (unfold Qcdiv; ring). change (Q2Qc (inject_Z (IndexSpec.zlen (@nil (Qc * Qc))))) with (Q2Qc 0) in H. rewrite E in H. discriminate H. }
  unfold zero. rewrite ltb_fin. unfold regression. set (dof := freedom N_fac l) in *. clearbody dof.
  destruct (qc_ltb (Q2Qc 0) dof) eqn:En; cbv iota.
  2:{ apply qc_ltb_ge in En. assert (~ (Q2Qc 0 < dof)%Qc) as Hno by (apply Qcle_not_lt; exact En). cbn [andb f_m f_b f_r2 f_p f_sm f_se]. repeat split; tauto. }
  apply qc_ltb_lt in En. specialize (Hpos En). pose proof (pos_ne _ (count_pos l Hpos)) as Hn. pose proof (pos_ne _ En) as Hdof.
  rewrite !mul_fin, !div_fin, !sub_fin by exact Hn.
  replace (total (squares (map fst l)) - total (map fst l) * total (map fst l) / Q2Qc (inject_Z (zlen l)))%Qc with (spread (map fst l)).
  2:{ rewrite spread_eq by now apply map_ne. now rewrite count_map. }
  replace (total (squares (map snd l)) - total (map snd l) * total (map snd l) / Q2Qc (inject_Z (zlen l)))%Qc with (spread (map snd l)).
  2:{ rewrite spread_eq by now apply map_ne. now rewrite count_map. }
  rewrite <- joint_eq by exact Hpos. rewrite !mul_fin, !ltb_fin.
  destruct (differ_ltb (map fst l)) as [D1 D2]. destruct (differ_ltb (map snd l)) as [D3 D4].
  destruct (qc_ltb (Q2Qc 0) (spread (map fst l))) eqn:Ex; cbv iota.
  2:{ assert (~ differ (map fst l)) as Hno by (apply D2; reflexivity). cbn [andb f_m f_b f_r2 f_p f_sm f_se].
      assert (qc_ltb (Q2Qc 0) (spread (map fst l) * spread (map snd l))%Qc = false) as ->.
      { apply qc_ltb_ge. rewrite (same_spread _ Hno). rewrite Qcmult_0_l. apply Qcle_refl. }
      cbn [andb]. repeat split; tauto. }
  assert (differ (map fst l)) as Hd by (apply D1; reflexivity). pose proof (the_line l Hpos Hd) as HL. pose proof (the_error l Hpos Hd) as HE.
  apply qc_ltb_lt in Ex. pose proof (pos_ne _ Ex) as Hx.
  rewrite !div_fin by exact Hx. change (joint_spread l / spread (map fst l))%Qc with (slope l). rewrite !mul_fin, !sub_fin, !div_fin by first [exact Hn|exact Hdof].
  rewrite <- HE. change ((total (map snd l) - slope l * total (map fst l)) / Q2Qc (inject_Z (zlen l)))%Qc with (offset l).
  rewrite !(div_fin _ dof Hdof), !(div_fin _ (spread (map fst l)) Hx).   cbn [andb f_m f_b f_r2 f_p f_sm f_se].
  split; [|split; [|split]].
  - intros _. exists (offset l), (slope l). split; [exact HL|]. repeat split.
  - tauto.
  - intros _ Hd2. exists (offset l), (slope l). split; [exact HL|]. pose proof (differ_spread _ Hd2) as Hy. pose proof (pos_ne _ Hy) as Hy'.
    assert (qc_ltb (Q2Qc 0) (spread (map fst l) * spread (map snd l))%Qc = true) as ->.
    { apply qc_ltb_lt. rewrite <- (Qcmult_0_l (spread (map snd l))). now apply Qcmult_lt_compat_r. }
    cbv iota. rewrite div_fin by (intros E; apply Qcmult_integral in E; tauto). f_equal. rewrite HE. unfold slope. change 1%Qc with (Q2Qc 1). field. split; assumption.
  - intros Hno. assert (~ differ (map snd l)) as Hno' by tauto.
    assert (qc_ltb (Q2Qc 0) (spread (map fst l) * spread (map snd l))%Qc = false) as ->; [|reflexivity].
    apply qc_ltb_ge. rewrite (same_spread _ Hno'), Qcmult_0_r. apply Qcle_refl.
Qed.

Theorem corr_of_spec l : root_sign sqrt -> correlation sqrt cdf l (corr_of sqrt cdf (sums_of l)).
Proof.
  intros Hq. unfold sums_of, corr_of. rewrite count_ltb'. unfold correlation. destruct l as [|p0 l0] eqn:El.
  { assert (~ (differ (map fst (@nil (Qc * Qc))) /\ differ (map snd (@nil (Qc * Qc))))) as Hno by (intros [H _]; now apply differ_ne in H).
    cbn [andb c_r c_r2 c_p]. split; [tauto|]. intros _. repeat split. }
  rewrite <- El. assert (l <> []) as Hne by (rewrite El; discriminate). clear El p0 l0. cbn [andb]. unfold num_of_Z. pose proof (pos_ne _ (count_pos l Hne)) as Hn.
  rewrite !mul_fin, !div_fin, !sub_fin by exact Hn.
  replace (total (squares (map fst l)) - total (map fst l) * total (map fst l) / Q2Qc (inject_Z (zlen l)))%Qc with (spread (map fst l)).
  2:{ rewrite spread_eq by now apply map_ne. now rewrite count_map. }
  replace (total (squares (map snd l)) - total (map snd l) * total (map snd l) / Q2Qc (inject_Z (zlen l)))%Qc with (spread (map snd l)).
  2:{ rewrite spread_eq by now apply map_ne. now rewrite count_map. }
  rewrite <- joint_eq by exact Hne.
  assert (forall r, positive_part (Fin (spread r)) = Fin (spread r)) as Epp.
  { intros r. unfold positive_part, zero. rewrite ltb_fin. cbn [is_nan orb]. destruct (qc_ltb (Q2Qc 0) (spread r)) eqn:E; [reflexivity|]. cbn [orb]. f_equal. apply qc_ltb_ge in E.
    apply Qcle_antisym; [apply spread_nonneg|exact E]. }
  rewrite !Epp, mul_fin. set (sq := sqrt (Fin (spread (map fst l) * spread (map snd l))%Qc)).
  assert (ltb zero sq = true <-> differ (map fst l) /\ differ (map snd l)) as Hs.
  { assert (Q2Qc 0 <= spread (map fst l) * spread (map snd l))%Qc as Hnn by (rewrite <- (Qcmult_0_l (spread (map snd l))); apply Qcmult_le_compat_r; apply spread_nonneg).
    destruct (Hq _ Hnn) as [Q1 Q2]. unfold sq. split.
    - intros H0. pose proof (Q1 H0) as H. destruct (differ_ltb (map fst l)) as [D1 D2]. destruct (differ_ltb (map snd l)) as [D3 D4]. split.
      + destruct (qc_ltb (Q2Qc 0) (spread (map fst l))) eqn:E; [now apply D1|]. exfalso. rewrite (same_spread (map fst l)), Qcmult_0_l in H by (now apply D2). discriminate H.
      + destruct (qc_ltb (Q2Qc 0) (spread (map snd l))) eqn:E; [now apply D3|]. exfalso. rewrite (same_spread (map snd l)), Qcmult_0_r in H by (now apply D4). discriminate H.
    - intros [H1 H2]. apply Q2. rewrite <- (Qcmult_0_l (spread (map snd l))). apply Qcmult_lt_compat_r; now apply differ_spread. }
  destruct (ltb zero sq) eqn:E; cbn [c_r c_r2 c_p].
  - split; [|intros H; exfalso; apply H, Hs; reflexivity]. intros _. repeat split.
  - assert (~ (differ (map fst l) /\ differ (map snd l))) as Hno by (intros H; apply Hs in H; discriminate). split; [tauto|]. intros _. repeat split.
Qed.
End Formulas.
