(** The line of least squares. *)
From Coq Require Import ZArith List Bool Lia QArith_base QArith Qcanon Field.
From Verif Require Import IndexModel IndexSpec IndexProofs NumModel NumProofs ReduceModel ReduceSpec StatProofs ClimModel ClimSpec.
Import ListNotations.
Open Scope Z_scope.
Notation zlen := IndexSpec.zlen.
Notation total := ReduceSpec.total.

Lemma total_cons q l : total (q :: l) = (q + total l)%Qc.
Proof. reflexivity. Qed.
Lemma square_nonneg (q : Qc) : (Q2Qc 0 <= q * q)%Qc.
Proof. pose proof (squares_nonneg [q]) as H. cbn in H. now rewrite Qcplus_0_r in H. Qed.
Lemma sum_zero (p q : Qc) : (Q2Qc 0 <= p)%Qc -> (Q2Qc 0 <= q)%Qc -> (p + q = Q2Qc 0)%Qc -> p = Q2Qc 0 /\ q = Q2Qc 0.
Proof.
  intros Hp Hq H. assert (p = - q)%Qc as E by (rewrite <- (Qcplus_0_r p), <- (Qcplus_opp_r q), Qcplus_assoc, H; ring).
  assert (q <= Q2Qc 0)%Qc as Hq' by (apply Qcopp_le_compat in Hp; rewrite E, Qcopp_involutive in Hp; exact Hp).
  pose proof (Qcle_antisym _ _ Hq Hq') as E0. split; [|now symmetry]. rewrite E, <- E0. ring.
Qed.
Lemma squares_zero l : total (squares l) = Q2Qc 0 -> forall q, In q l -> q = Q2Qc 0.
Proof.
  induction l as [|p l IH]; intros H q []; cbn [squares map] in H; rewrite total_cons in H; fold (squares l) in H;
    apply sum_zero in H as [H1 H2]; try apply square_nonneg; try apply squares_nonneg.
  - subst. destruct (Qcmult_integral _ _ H1); assumption.
  - auto.
Qed.

Section Line.
Context (l : list (Qc * Qc)).
Notation sx := (total (map fst l)).
Notation sf := (total (map snd l)).
Notation sxx := (total (squares (map fst l))).
Notation sxf := (total (map (fun '(s, f) => s * f)%Qc l)).
Definition rest (a b : Qc) (p : Qc * Qc) : Qc := let '(s, f) := p in (f - (a + b * s))%Qc.
Lemma cnt_cons {A} (q : A) (r : list A) : Q2Qc (inject_Z (zlen (q :: r))) = (Q2Qc 1 + Q2Qc (inject_Z (zlen r)))%Qc.
Proof. rewrite <- (qz_add 1). f_equal. f_equal. unfold zlen. cbn [length]. lia. Qed.
Notation cnt := (Q2Qc (inject_Z (zlen l))).
Lemma sum_rest a b : total (map (rest a b) l) = (sf - cnt * a - b * sx)%Qc.
Proof.
  induction l as [|[s f] r IH]; [cbn [map total fold_right]; change (Q2Qc (inject_Z (zlen (@nil (Qc*Qc))))) with (Q2Qc 0); ring|].
  rewrite cnt_cons. cbn [map rest fst snd]. rewrite !total_cons, IH. ring.
Qed.
Lemma sum_rest_s a b : total (map (fun p => rest a b p * fst p)%Qc l) = (sxf - a * sx - b * sxx)%Qc.
Proof.
  induction l as [|[s f] r IH]; [cbn [map total fold_right squares]; ring|]. cbn [map rest fst squares]. rewrite !total_cons. rewrite IH. unfold squares. ring.
Qed.
Lemma error_split a b a' b' : squared_error l a' b' =
  (squared_error l a b + (Q2Qc 1 + Q2Qc 1) * ((a - a') * total (map (rest a b) l) + (b - b') * total (map (fun p => rest a b p * fst p)%Qc l))
   + total (squares (map (fun p => (a - a') + (b - b') * fst p)%Qc l)))%Qc.
Proof.
  unfold squared_error. induction l as [|[s f] r IH]; [cbn [map total fold_right squares]; ring|]. cbn [map rest fst squares]. rewrite !total_cons. rewrite IH. unfold squares. ring.
Qed.
Lemma spread_times i j : In i l -> In j l -> fst i <> fst j -> (cnt * sxx - sx * sx <> Q2Qc 0)%Qc.
Proof.
  intros Hi Hj Hne E. set (m := (sx / cnt)%Qc).
  assert (cnt <> Q2Qc 0) as Hn.
  { destruct l as [|p r]; [destruct Hi|]. intros H. apply (qz_inj (zlen (p :: r)) 0) in H. unfold zlen in H. cbn in H. lia. }
  pose proof (deviations m (map fst l)) as Hd. replace (count (map fst l)) with cnt in Hd by (unfold count, zlen; now rewrite map_length).
  assert (sxx - (m + m) * sx + cnt * (m * m) = (cnt * sxx - sx * sx) / cnt)%Qc as E2 by (unfold m; field; exact Hn).
  rewrite E2, E in Hd. assert (total (squares (map (fun q => q - m)%Qc (map fst l))) = Q2Qc 0) as Hz by (rewrite Hd; field; exact Hn).
  pose proof (squares_zero _ Hz) as Hall.
  assert (forall p, In p l -> fst p = m) as Hp.
  { intros p Hp. assert (fst p - m = Q2Qc 0)%Qc as Q by (apply Hall; rewrite map_map; apply in_map_iff; exists p; auto).
    assert (fst p = (fst p - m) + m)%Qc as -> by ring. rewrite Q. ring. }
  apply Hne. now rewrite (Hp i Hi), (Hp j Hj).
Qed.
Theorem least_line i j : In i l -> In j l -> fst i <> fst j ->
  best_line l ((sxx * sf - sx * sxf) / (cnt * sxx - sx * sx))%Qc ((cnt * sxf - sx * sf) / (cnt * sxx - sx * sx))%Qc.
Proof.
  intros Hi Hj Hne. pose proof (spread_times i j Hi Hj Hne) as Hd.
  set (a := ((sxx * sf - sx * sxf) / (cnt * sxx - sx * sx))%Qc). set (b := ((cnt * sxf - sx * sf) / (cnt * sxx - sx * sx))%Qc).
  assert (total (map (rest a b) l) = Q2Qc 0) as R0 by (rewrite sum_rest; unfold a, b; field; exact Hd).
  assert (total (map (fun p => rest a b p * fst p)%Qc l) = Q2Qc 0) as R1 by (rewrite sum_rest_s; unfold a, b; field; exact Hd).
  intros a' b'. pose proof (error_split a b a' b') as He. rewrite R0, R1 in He.
  assert (squared_error l a' b' = squared_error l a b + total (squares (map (fun p => (a - a') + (b - b') * fst p) l)))%Qc as He' by (rewrite He; ring). clear He.
  split.
  - rewrite He'. rewrite <- (Qcplus_0_r (squared_error l a b)) at 1. apply Qcplus_le_compat; [apply Qcle_refl|apply squares_nonneg].
  - intros E. rewrite He' in E.
    assert (total (squares (map (fun p => (a - a') + (b - b') * fst p) l)) = Q2Qc 0)%Qc as Hz.
    { revert E. generalize (total (squares (map (fun p => (a - a') + (b - b') * fst p) l))%Qc). intros T E. transitivity ((squared_error l a b + T) - squared_error l a b)%Qc; [ring|]. rewrite E. ring. }
    pose proof (squares_zero _ Hz) as Hall.
    assert (forall p, In p l -> ((a - a') + (b - b') * fst p = Q2Qc 0)%Qc) as Hp by (intros p Hp; apply Hall, in_map_iff; exists p; auto).
    pose proof (Hp i Hi) as Pi. pose proof (Hp j Hj) as Pj.
    assert ((b - b') * (fst i - fst j) = Q2Qc 0)%Qc as Q.
    { assert ((b - b') * (fst i - fst j) = ((a - a') + (b - b') * fst i) - ((a - a') + (b - b') * fst j))%Qc as -> by ring. rewrite Pi, Pj. ring. }
    apply Qcmult_integral in Q as [Q|Q].
    + assert (b' = b) as Eb by (assert (b = (b - b') + b')%Qc as -> by ring; rewrite Q; ring). split; [|exact Eb].
      rewrite Q in Pi. assert (a = ((a - a') + Q2Qc 0 * fst i) + a')%Qc as -> by ring. rewrite Pi. ring.
    + exfalso. apply Hne. assert (fst i = (fst i - fst j) + fst j)%Qc as -> by ring. rewrite Q. ring.
Qed.
End Line.
