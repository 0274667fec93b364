(** Lemmas about the Python layer (units, partial dates, wrapdate, days_in_month, day-of-year). *)
From Coq Require Import ZArith List Bool Lia ZifyBool QArith_base Qabs.
From Verif Require Import Loop CalModel CalSpec CalProofs.
Open Scope Z_scope.
Ltac Zify.zify_post_hook ::= Z.to_euclidean_division_equations.

Lemma round_exact q z : (q == inject_Z z)%Q -> round_half_even q = z.
Proof.
  unfold Qeq, inject_Z; cbn [Qnum Qden]. intros H. unfold round_half_even.
  assert (Hn : Qnum q = z * Zpos (Qden q)) by lia. rewrite Hn.
  rewrite Z.div_mul by lia. rewrite Z.sub_diag. cbn [Z.mul].
  destruct (Z.ltb_spec 0 (Zpos (Qden q))); lia.
Qed.

Lemma round_near q : (Qabs (inject_Z (round_half_even q) - q) <= 1 # 2)%Q.
Proof.
  destruct q as [n d]. apply Qabs_Qle_condition.
  unfold round_half_even, Qle, Qminus, Qplus, Qopp, inject_Z; cbn [Qnum Qden].
  pose proof (Z.mul_div_le n (Zpos d) ltac:(lia)) as H1.
  pose proof (Z.mul_succ_div_gt n (Zpos d) ltac:(lia)) as H2.
  rewrite !Pos2Z.inj_mul. cbn [Pos.mul].
  set (f := n / Zpos d) in *. clearbody f. set (D := Zpos d) in *. assert (0 < D) by lia. clearbody D.
  change (Zpos 2) with 2. change (Zpos 1) with 1.
  destruct (Z.ltb_spec (2 * (n - f * D)) D); [split; nia|].
  destruct (Z.gtb_spec (2 * (n - f * D)) D); [split; nia|].
  destruct (Z.even f); split; nia.
Qed.

Lemma seconds_exact v u : round_half_even ((v # unitfactor u) * inject_Z (Zpos (unitfactor u))) = v.
Proof.
  apply round_exact. unfold Qeq, Qmult, inject_Z; cbn [Qnum Qden]. lia.
Qed.

Lemma get_full d : get_dates (full d) = d.
Proof. destruct d; reflexivity. Qed.

Lemma py_date_val_date c s u d : good_start c (get_dates s) -> valid_date c d ->
  exists q, date_as_val c s u (full d) = Some q /\ val_as_date c s u true q = Some (full d).
Proof.
  intros Hs Hd. destruct (date_val_date c (get_dates s) d Hs Hd) as (v & H1 & H2).
  unfold date_as_val, val_as_date. rewrite get_full, H1. eexists; split; [reflexivity|].
  rewrite seconds_exact, H2. destruct d; reflexivity.
Qed.

Lemma py_val_date_val c s u q : good_start c (get_dates s) ->
  exists p r, val_as_date c s u true q = Some (full p) /\ valid_date c p /\
    date_as_val c s u (full p) = Some r /\
    (Qabs ((r - q) * inject_Z (Zpos (unitfactor u))) <= 1 # 2)%Q /\
    (forall n, (q * inject_Z (Zpos (unitfactor u)) == inject_Z n)%Q -> (r == q)%Q).
Proof.
  intros Hs. unfold val_as_date.
  set (z := round_half_even (q * inject_Z (Zpos (unitfactor u)))).
  destruct (val_date_val c (get_dates s) z Hs) as (d & H1 & H2 & H3).
  rewrite H1. exists d, (z # unitfactor u). split; [destruct d; reflexivity|]. split; [exact H2|].
  split; [unfold date_as_val; rewrite get_full, H3; reflexivity|].
  assert (E : (((z # unitfactor u) - q) * inject_Z (Zpos (unitfactor u)) ==
               inject_Z z - q * inject_Z (Zpos (unitfactor u)))%Q).
  { unfold Qeq, Qmult, Qminus, Qplus, Qopp, inject_Z; destruct q as [n d']; cbn [Qnum Qden].
    rewrite !Pos2Z.inj_mul. ring. }
  split.
  - rewrite E. apply round_near.
  - intros n Hn. unfold z. rewrite (round_exact _ n Hn).
    revert Hn. unfold Qeq, Qmult, inject_Z; destruct q as [a b]; cbn [Qnum Qden].
    rewrite !Pos2Z.inj_mul. intros Hn. lia.
Qed.

Lemma seconds_in_eq u : Zpos (unitfactor u) = seconds_in u.
Proof. destruct u; reflexivity. Qed.
Lemma py_val_date_val_units c s u q : good_start c (get_dates s) ->
  exists p r, val_as_date c s u true q = Some (full p) /\ valid_date c p /\
    date_as_val c s u (full p) = Some r /\
    (Qabs ((r - q) * inject_Z (seconds_in u)) <= 1 # 2)%Q /\
    (forall n, (q * inject_Z (seconds_in u) == inject_Z n)%Q -> (r == q)%Q).
Proof. rewrite <- seconds_in_eq. apply py_val_date_val. Qed.


(** one second is one [seconds_in u]-th of a unit *)
Lemma py_tick c s u a b : good_start c (get_dates s) -> valid_date c a -> tick c a b ->
  exists va vb, date_as_val c s u (full a) = Some va /\ date_as_val c s u (full b) = Some vb /\
    ((vb - va) * inject_Z (seconds_in u) == 1)%Q.
Proof.
  intros Hs Ha T. destruct (tick_val c _ a b Hs Ha T) as (_ & v & H1 & H2).
  exists (v # unitfactor u), ((v + 1) # unitfactor u). unfold date_as_val. rewrite !get_full, H1, H2. split; [reflexivity|]. split; [reflexivity|].
  rewrite <- seconds_in_eq. unfold Qeq, Qminus, Qplus, Qopp, Qmult, inject_Z. cbn [Qnum Qden]. rewrite !Pos2Z.inj_mul. ring.
Qed.

(** with partial start dates the result keeps exactly the start date's fields *)
Lemma py_fields c s u q p : val_as_date c s u false q = Some p ->
  exists d, val_as_date c s u true q = Some (full d) /\
    pyear p = keep (pyear s) (year d) /\ pmonth p = keep (pmonth s) (month d) /\
    pday p = keep (pday s) (day d) /\ phour p = keep (phour s) (hour d) /\
    pminute p = keep (pminute s) (minute d) /\ psecond p = keep (psecond s) (second d).
Proof.
  unfold val_as_date. destruct (c_val_as_date _ _ _) as [d|]; [|discriminate].
  intros H; injection H as <-. exists d. cbn [pyear pmonth pday phour pminute psecond].
  repeat split; reflexivity.
Qed.

Lemma py_wrapdate c s u p : good_start c (get_dates s) -> good_any c (get_dates p) ->
  exists d v, wrapdate c s u true p = Some (full d) /\ valid_date c d /\
    date_as_val c s u p = Some v /\ date_as_val c s u (full d) = Some v /\
    wrapdate c s u true (full d) = Some (full d).
Proof.
  intros Hs Hp. destruct (dav_total c _ _ Hs Hp) as (t & E1 & _).
  set (v := t - A c (get_dates s)) in *.
  destruct (val_date_val c (get_dates s) v Hs) as (d & H1 & H2 & H3).
  exists d, (v # unitfactor u). unfold wrapdate.
  assert (K1 : date_as_val c s u p = Some (v # unitfactor u)) by (unfold date_as_val; now rewrite E1).
  assert (K2 : date_as_val c s u (full d) = Some (v # unitfactor u))
    by (unfold date_as_val; now rewrite get_full, H3).
  assert (K3 : val_as_date c s u true (v # unitfactor u) = Some (full d)).
  { unfold val_as_date. rewrite seconds_exact, H1. destruct d; reflexivity. }
  rewrite K1, K2, K3. auto.
Qed.

Lemma py_wrapdate_valid c s u d : good_start c (get_dates s) -> valid_date c d ->
  wrapdate c s u true (full d) = Some (full d).
Proof.
  intros Hs Hd. destruct (py_date_val_date c s u d Hs Hd) as (q & H1 & H2).
  unfold wrapdate. now rewrite H1.
Qed.

Lemma py_days_in_month c y m n : month_length c y m n ->
  exists q, days_in_month c y m = Some q /\ (q == inject_Z n)%Q.
Proof.
  intros H. pose proof (month_length_bounds _ _ _ _ H) as [Hm _].
  assert (Hc : c <> Yearless) by (intros ->; inversion H; intuition congruence).
  set (i := mkdate y m 1 0 0 0).
  assert (G : good_start c i) by (destruct c; cbn; auto; congruence).
  assert (V : valid_date c (mkdate y m n 23 59 59)).
  { unfold valid_date, valid_time; cbn [hour minute second year month day]. split; [lia|].
    pose proof (month_length_bounds _ _ _ _ H).
    destruct c; try congruence; exists n; (split; [exact H|lia]). }
  assert (T : exists b, tick c (mkdate y m n 23 59 59) b /\
    c_date_as_val c i (mkdate y (m + 1) 1 0 0 0) = c_date_as_val c i b).
  { destruct (Z.eq_dec m 12) as [->|].
    - eexists; split; [eapply t_year; eassumption|].
      change (12 + 1) with (1 + 12 * 1). rewrite month_wrap by assumption. reflexivity.
    - eexists; split; [eapply t_month; try eassumption; lia|]. reflexivity. }
  destruct T as (b & T & E).
  destruct (tick_val c i _ _ G V T) as (_ & va & K1 & K2).
  assert (GA : good_any c (mkdate y m n 23 59 59)) by (destruct c; cbn; auto; congruence).
  destruct (carry_fields c i y m n 23 59 59 G GA) as (v0 & C1 & C2).
  fold i in C1. rewrite start_is_zero in C1 by exact G. injection C1 as <-.
  rewrite C2 in K1. injection K1 as <-.
  exists ((n * 86400) # 86400). split.
  - assert (Hx : days_in_month c y m = match c_date_as_val c i (mkdate y (m + 1) 1 0 0 0) with
       | None => None | Some v => Some (v # 86400) end) by (destruct c; try congruence; reflexivity).
    rewrite Hx, E, K2. do 2 f_equal. lia.
  - unfold Qeq, inject_Z; cbn [Qnum Qden]. lia.
Qed.

Lemma doy_table c y m d k : day_of_year c y m d k -> c = Std \/ c = C365 -> 1 <= m <= 12 ->
  k = month2doy (match c with Std => isleap y | _ => false end) m + d.
Proof.
  intros H Hc. induction H as [d|m d n k Hl Hd IH]; intros Hm.
  - destruct c; try (intuition congruence); destruct (isleap y); reflexivity.
  - rewrite IH by (pose proof (month_length_bounds _ _ _ _ Hl); lia).
    destruct Hc as [-> | ->].
    + apply mlen_spec in Hl as [Hm' ->]. unfold mlen. destruct (Z.eqb_spec m 12); lia.
    + apply mlen365_spec in Hl as [Hm' ->]. unfold mlen. destruct (Z.eqb_spec m 12); lia.
Qed.

Lemma doy_360 y m d k : day_of_year C360 y m d k -> k = 30 * (m - 1) + d.
Proof.
  intros H; induction H as [d|m d n k Hl Hd IH]; [lia|].
  apply mlen360_spec in Hl as [? ->]. lia.
Qed.

(** what _getdoy computes, in seconds/86400 *)
Lemma getdoy_std_value d : 1 <= month d <= 12 -> exists q, getdoy Std (full d) = Some q /\
  (q == (month2doy true (month d) + day d) * 86400 + hour d * 3600 + minute d * 60 + second d # 86400)%Q.
Proof.
  intros Hm. unfold getdoy, date_as_val. cbn [c_date_as_val].
  unfold get_dates; cbn [dflt pyear pmonth pday phour pminute psecond full unitfactor].
  rewrite dav_std by (cbn; lia). eexists; split; [reflexivity|].
  rewrite wrapm_id by (cbn; lia). unfold A_std, tod; cbn [year month day hour minute second].
  change (isleap 0) with true. change (month2doy true 1) with 0. generalize (N 0) (month2doy true (month d)).
  intros. unfold Qeq; cbn [Qnum Qden]. lia.
Qed.

Lemma getdoy_365_value d : 1 <= month d <= 12 -> exists q, getdoy C365 (full d) = Some q /\
  (q == (month2doy false (month d) + day d) * 86400 + hour d * 3600 + minute d * 60 + second d # 86400)%Q.
Proof.
  intros Hm. unfold getdoy, date_as_val. cbn [c_date_as_val].
  unfold get_dates; cbn [dflt pyear pmonth pday phour pminute psecond full unitfactor].
  rewrite dav_365 by (cbn; lia). eexists; split; [reflexivity|].
  rewrite wrapm_id by (cbn; lia). unfold A_365, tod; cbn [year month day hour minute second].
  change (month2doy false 1) with 0. generalize (month2doy false (month d)).
  intros. unfold Qeq; cbn [Qnum Qden]. lia.
Qed.

Lemma getdoy_360_value d : exists q, getdoy C360 (full d) = Some q /\
  (q == (30 * (month d - 1) + day d) * 86400 + hour d * 3600 + minute d * 60 + second d # 86400)%Q.
Proof.
  unfold getdoy, date_as_val. cbn [c_date_as_val].
  unfold get_dates; cbn [dflt pyear pmonth pday phour pminute psecond full unitfactor].
  rewrite dav_360. eexists; split; [reflexivity|].
  unfold A_360, tod; cbn [year month day hour minute second].
  unfold Qeq; cbn [Qnum Qden]. lia.
Qed.

Lemma getdoy_correct c d k : c <> Yearless -> (c = Std -> leap_year (year d)) ->
  1 <= month d <= 12 -> day_of_year c (year d) (month d) (day d) k ->
  exists q, getdoy c (full d) = Some q /\
   (q == k * 86400 + hour d * 3600 + minute d * 60 + second d # 86400)%Q.
Proof.
  intros Hc Hl Hm Hk. destruct c; try congruence.
  - rewrite (doy_table _ _ _ _ _ Hk) by auto. specialize (Hl eq_refl).
    apply isleap_spec in Hl. rewrite Hl. now apply getdoy_std_value.
  - rewrite (doy_table _ _ _ _ _ Hk) by auto. now apply getdoy_365_value.
  - rewrite (doy_360 _ _ _ _ Hk). apply getdoy_360_value.
Qed.

Lemma getdoy_wrong d k : ~ leap_year (year d) -> 3 <= month d <= 12 ->
  day_of_year Std (year d) (month d) (day d) k ->
  exists q, getdoy Std (full d) = Some q /\
   (q == (k + 1) * 86400 + hour d * 3600 + minute d * 60 + second d # 86400)%Q.
Proof.
  intros Hl Hm Hk. rewrite (doy_table _ _ _ _ _ Hk) by (auto; lia).
  apply isleap_false in Hl. rewrite Hl.
  destruct (getdoy_std_value d ltac:(lia)) as (q & E1 & E2). exists q. split; [exact E1|].
  rewrite E2. assert (month2doy true (month d) = month2doy false (month d) + 1).
  { assert (month d = 3 \/ month d = 4 \/ month d = 5 \/ month d = 6 \/ month d = 7 \/ month d = 8 \/
      month d = 9 \/ month d = 10 \/ month d = 11 \/ month d = 12) as D by lia.
    intuition (match goal with H : month d = _ |- _ => rewrite H end; reflexivity). }
  rewrite H. unfold Qeq; cbn [Qnum Qden]. lia.
Qed.
