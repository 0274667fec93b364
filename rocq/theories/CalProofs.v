From Coq Require Import ZArith List Bool Lia ZifyBool.
From Verif Require Import Loop CalModel CalSpec.
Import ListNotations.
Open Scope Z_scope.
Ltac Zify.zify_post_hook ::= Z.to_euclidean_division_equations.

(** *** Leap years and day counts *)
Definition N (y : Z) : Z := (y - 1) * 365 + (y - 1) / 4 - (y - 1) / 100 + (y - 1) / 400.

Lemma ndays_N y1 y2 : ndays y1 y2 = N y2 - N y1.
Proof. unfold ndays, N; lia. Qed.

Lemma isleap_spec y : isleap y = true <-> leap_year y.
Proof.
  unfold isleap, leap_year.
  assert (H : forall k, k > 0 -> ((k | y) <-> Z.rem y k = 0)).
  { intros k Hk. split.
    - intros D. apply Z.rem_divide; [lia|exact D].
    - intros D. apply Z.rem_divide; [lia|exact D]. }
  rewrite (H 4), (H 100), (H 400) by lia. lia.
Qed.

Lemma isleap_false y : isleap y = false <-> ~ leap_year y.
Proof. rewrite <- isleap_spec. destruct (isleap y); intuition congruence. Qed.

Definition b2z (b : bool) : Z := if b then 1 else 0.

Lemma N_succ y : N (y + 1) - N y = 365 + b2z (isleap y).
Proof.
  unfold N, isleap. replace (y + 1 - 1) with y by lia.
  assert (H4 : y / 4 - (y - 1) / 4 = if Z.rem y 4 =? 0 then 1 else 0).
  { destruct (Z.eqb_spec (Z.rem y 4) 0); lia. }
  assert (H100 : y / 100 - (y - 1) / 100 = if Z.rem y 100 =? 0 then 1 else 0).
  { destruct (Z.eqb_spec (Z.rem y 100) 0); lia. }
  assert (H400 : y / 400 - (y - 1) / 400 = if Z.rem y 400 =? 0 then 1 else 0).
  { destruct (Z.eqb_spec (Z.rem y 400) 0); lia. }
  assert (Hd1 : Z.rem y 400 = 0 -> Z.rem y 100 = 0) by lia.
  assert (Hd2 : Z.rem y 100 = 0 -> Z.rem y 4 = 0) by lia.
  clear -H4 H100 H400 Hd1 Hd2.
  set (a := y / 4) in *; set (b := y / 100) in *; set (c := y / 400) in *.
  set (a' := (y-1) / 4) in *; set (b' := (y-1) / 100) in *; set (c' := (y-1) / 400) in *.
  destruct (Z.eqb_spec (Z.rem y 4) 0) as [E4|E4], (Z.eqb_spec (Z.rem y 100) 0) as [E1|E1],
    (Z.eqb_spec (Z.rem y 400) 0) as [E3|E3]; cbn [andb orb negb b2z];
    try (exfalso; tauto); clearbody a b c a' b' c'; clear Hd1 Hd2;
    clear E4 E1 E3; lia.
Qed.

Lemma N_succ_bounds y : 365 <= N (y + 1) - N y <= 366.
Proof. rewrite N_succ. unfold b2z; destruct (isleap y); lia. Qed.

Lemma N_diff_nat k y : 365 * Z.of_nat k <= N (y + Z.of_nat k) - N y <= 366 * Z.of_nat k.
Proof.
  induction k as [|k IH].
  - rewrite Z.add_0_r. lia.
  - pose proof (N_succ_bounds (y + Z.of_nat k)) as H.
    replace (y + Z.of_nat (S k)) with (y + Z.of_nat k + 1) by lia.
    generalize dependent (N (y + Z.of_nat k + 1)). generalize dependent (N (y + Z.of_nat k)).
    generalize (N y). intros; lia.
Qed.

Lemma N_diff a b : a <= b -> 365 * (b - a) <= N b - N a <= 366 * (b - a).
Proof.
  intros H. pose proof (N_diff_nat (Z.to_nat (b - a)) a) as K.
  rewrite Z2Nat.id in K by lia. replace (a + (b - a)) with b in K by lia. exact K.
Qed.

(** *** Months *)
Lemma months12 (P : Z -> Prop) :
  P 1 -> P 2 -> P 3 -> P 4 -> P 5 -> P 6 -> P 7 -> P 8 -> P 9 -> P 10 -> P 11 -> P 12 ->
  forall m, 1 <= m <= 12 -> P m.
Proof.
  intros H1 H2 H3 H4 H5 H6 H7 H8 H9 H10 H11 H12 m Hm.
  assert (m = 1 \/ m = 2 \/ m = 3 \/ m = 4 \/ m = 5 \/ m = 6 \/ m = 7 \/ m = 8 \/ m = 9 \/
          m = 10 \/ m = 11 \/ m = 12) as D by lia.
  intuition (subst; assumption).
Qed.

Ltac by_month := match goal with |- forall m, 1 <= m <= 12 -> @?P m => apply (months12 P) end.

(** length of month m computed from the table (12 handled with the year length) *)
Definition mlen (l : bool) (m : Z) : Z :=
  (if m =? 12 then 365 + b2z l else month2doy l (m + 1)) - month2doy l m.

Lemma mlen_spec y m n : month_length Std y m n <-> 1 <= m <= 12 /\ n = mlen (isleap y) m.
Proof.
  split.
  - intros H; inversion H; subst; try discriminate; split; try lia.
    + apply isleap_spec in H0. rewrite H0. reflexivity.
    + apply isleap_false in H0. rewrite H0. reflexivity.
    + intuition (subst; destruct (isleap y); reflexivity).
    + intuition (subst; destruct (isleap y); reflexivity).
  - intros [Hm ->]. revert m Hm.
    by_month; try (destruct (isleap y) eqn:E;
      [ (constructor; [auto|lia]) || (apply ml_feb_leap, isleap_spec, E)
      | (constructor; [auto|lia]) || (apply ml_feb_std, isleap_false, E)]).
Qed.

Lemma mlen365_spec y m n : month_length C365 y m n <-> 1 <= m <= 12 /\ n = mlen false m.
Proof.
  split.
  - intros H; inversion H; subst; try discriminate; split; try lia; try reflexivity;
      intuition (subst; reflexivity).
  - intros [Hm ->]. revert m Hm.
    by_month; (constructor; [auto|lia]) || apply ml_feb_365.
Qed.

Lemma mlen360_spec y m n : month_length C360 y m n <-> 1 <= m <= 12 /\ n = 30.
Proof.
  split.
  - intros H; inversion H; subst; try (split; [assumption|reflexivity]);
      exfalso; intuition discriminate.
  - intros [Hm ->]; constructor; exact Hm.
Qed.

Lemma month2doy_mono l m1 m2 : 1 <= m1 <= 12 -> 1 <= m2 <= 12 -> m1 < m2 ->
  month2doy l m1 + mlen l m1 <= month2doy l m2.
Proof.
  intros H1 H2. revert m1 H1.
  by_month; revert m2 H2; destruct l; by_month; intros; try lia; vm_compute; congruence.
Qed.

Lemma month2doy_range l m : 1 <= m <= 12 ->
  0 <= month2doy l m /\ 28 <= mlen l m <= 31 /\ month2doy l m + mlen l m <= 365 + b2z l.
Proof.
  revert m. destruct l; by_month; vm_compute; intuition congruence.
Qed.

(** Finding the month by decreasing an estimate. *)
Lemma month_down_spec tab over : forall fuel m,
  (forall k, 1 <= k <= m -> over (tab k) = false -> True) ->
  1 <= m -> m < Z.of_nat fuel -> over (tab 1) = false ->
  exists m', month_down fuel tab over m = Some m' /\ 1 <= m' <= m /\ over (tab m') = false /\
             (m' < m -> over (tab (m' + 1)) = true).
Proof.
  induction fuel as [|k IH]; intros m _ H1 H2 H3; [lia|].
  cbn [month_down]. destruct (over (tab m)) eqn:E.
  - assert (m <> 1) by (intros ->; congruence).
    destruct (IH (m - 1)) as (m' & Hd & Hr & Ho & Hn); try lia; auto.
    exists m'. split; [exact Hd|]. split; [lia|]. split; [exact Ho|].
    intros _. destruct (Z.eq_dec m' (m - 1)) as [->|Hne].
    + replace (m - 1 + 1) with m by lia. exact E.
    + apply Hn; lia.
  - exists m. repeat split; auto; lia.
Qed.

(** *** Standard calendar *)
Definition tod (x : date) : Z := hour x * 3600 + minute x * 60 + second x.
Definition A_std (x : date) : Z :=
  (N (year x) + month2doy (isleap (year x)) (month x) + day x - 1) * 86400 + tod x.

Definition wrapm (x : date) : date :=
  mkdate (year x + (month x - 1) / 12) ((month x - 1) mod 12 + 1) (day x) (hour x) (minute x) (second x).

Lemma wrap_dy_div m : wrap_dy m = (m - 1) / 12.
Proof. unfold wrap_dy. destruct (Z.ltb_spec m 1); lia. Qed.

Lemma wrap_dy_month m : m - wrap_dy m * 12 = (m - 1) mod 12 + 1.
Proof. rewrite wrap_dy_div. lia. Qed.

Lemma check_month_spec m : check_month m = true <-> 1 <= m <= 12.
Proof. unfold check_month. lia. Qed.

Lemma wrapm_id x : 1 <= month x <= 12 -> wrapm x = x.
Proof.
  destruct x as [y m d h mi s]; cbn [month]; intros H. unfold wrapm; cbn [year month day hour minute second].
  replace ((m - 1) / 12) with 0 by lia. replace ((m - 1) mod 12 + 1) with m by lia.
  now rewrite Z.add_0_r.
Qed.

Lemma dav_std i x : 1 <= month i <= 12 ->
  date_as_val_std i x = Some (A_std (wrapm x) - A_std i).
Proof.
  intros H. unfold date_as_val_std. apply check_month_spec in H. rewrite H.
  rewrite wrap_dy_month, wrap_dy_div, ndays_N. unfold ref_std, A_std, wrapm, tod.
  cbn [year month day hour minute second]. f_equal.
  generalize (isleap (year x + (month x - 1) / 12)). intros l.
  generalize (month2doy l ((month x - 1) mod 12 + 1)).
  generalize (N (year x + (month x - 1) / 12)). generalize (N (year i)).
  generalize (month2doy (isleap (year i)) (month i)). intros; lia.
Qed.

Lemma back_loop s y : exists s' y',
  loop (fuel_for (Z.abs s + 1)) back_step (s, y) = inr (s', y') /\
  0 <= s' /\ s' + N y' * 86400 = s + N y * 86400.
Proof.
  destruct (loop_inv back_step
    (fun st => fst st + N (snd st) * 86400 = s + N y * 86400)
    (fun st => if fst st <? 0 then 1 else 0)
    (fun st => 0 <= fst st /\ fst st + N (snd st) * 86400 = s + N y * 86400))
    with (n := fuel_for (Z.abs s + 1)) (s := (s, y)) as ([s' y'] & H1 & H2 & H3).
  - intros [s0 y0] HI. cbn [fst snd] in *. unfold back_step.
    destruct (Z.ltb_spec s0 0) as [Hs|Hs]; cbn [fst snd].
    + set (k := Z.quot (Z.quot (- s0) 365) 86400).
      assert (Hk : 0 <= k /\ - s0 < (k + 1) * (365 * 86400)) by (unfold k; lia).
      rewrite ndays_N. pose proof (N_diff (y0 - 1 - k) y0 ltac:(lia)) as HN.
      clearbody k. set (Na := N (y0 - 1 - k)) in *. set (Nb := N y0) in *. clearbody Na Nb.
      destruct (Z.ltb_spec (s0 + (Nb - Na) * 86400) 0) as [Hc|Hc]; [exfalso; lia|].
      split; lia.
    + split; [lia|exact HI].
  - cbn [fst snd]; reflexivity.
  - cbn [fst]. pose proof (fuel_for_ok (Z.abs s + 1) ltac:(lia)).
    destruct (s <? 0); lia.
  - exists s', y'. auto.
Qed.

Lemma fwd_loop d y : 0 <= d -> exists d' y',
  loop (fuel_for (Z.abs d)) fwd_step (d, y) = inr (d', y') /\
  0 <= d' < 365 + b2z (isleap y') /\ d' + N y' = d + N y.
Proof.
  intros Hd.
  destruct (loop_inv fwd_step
    (fun st => 0 <= fst st /\ fst st + N (snd st) = d + N y)
    (fun st => fst st)
    (fun st => 0 <= fst st < 365 + b2z (isleap (snd st)) /\ fst st + N (snd st) = d + N y))
    with (n := fuel_for (Z.abs d)) (s := (d, y)) as ([d' y'] & H1 & H2 & H3).
  - intros [d0 y0] [HI0 HI]. cbn [fst snd] in *. unfold fwd_step.
    rewrite ndays_N. pose proof (N_succ y0) as HN1. pose proof (N_succ_bounds y0) as HN.
    destruct (Z.geb_spec d0 (N (y0 + 1) - N y0)) as [Hs|Hs]; cbn [fst snd]; lia.
  - cbn [fst snd]; auto.
  - cbn [fst]. pose proof (fuel_for_ok (Z.abs d) ltac:(lia)). lia.
  - exists d', y'. auto.
Qed.

Lemma time_split s : 0 <= s < 86400 ->
  0 <= Z.quot s 3600 < 24 /\ 0 <= Z.quot (Z.rem s 3600) 60 < 60 /\ 0 <= Z.rem (Z.rem s 3600) 60 < 60 /\
  Z.quot s 3600 * 3600 + Z.quot (Z.rem s 3600) 60 * 60 + Z.rem (Z.rem s 3600) 60 = s.
Proof. intros H. lia. Qed.

Lemma month_find l d : 0 <= d < 365 + b2z l -> exists m,
  (let m := Z.quot d 29 + 1 in
   let m := if m >? 12 then 12 else m in
   month_down 13 (month2doy l) (fun t => t >? d) m) = Some m /\
  1 <= m <= 12 /\ month2doy l m <= d < month2doy l m + mlen l m.
Proof.
  intros Hd. cbv zeta.
  set (m0 := if Z.quot d 29 + 1 >? 12 then 12 else Z.quot d 29 + 1).
  assert (Hm0 : 1 <= m0 <= 12 /\ (m0 = 12 \/ d < 29 * m0)).
  { unfold m0. destruct (Z.gtb_spec (Z.quot d 29 + 1) 12); lia. }
  destruct (month_down_spec (month2doy l) (fun t => t >? d) 13 m0) as (m & H1 & H2 & H3 & H4);
    try lia; auto.
  - assert (month2doy l 1 = 0) by (destruct l; reflexivity). lia.
  - exists m. split; [exact H1|]. split; [lia|]. split; [lia|].
    unfold mlen. destruct (Z.eqb_spec m 12) as [->|Hne]; [lia|].
    destruct (Z_lt_dec m m0) as [Hlt|Hge].
    + specialize (H4 Hlt). lia.
    + assert (m = m0) as -> by lia. destruct Hm0 as [Hm0 [E|E]]; [lia|].
      assert (29 * m0 <= month2doy l (m0 + 1)) as Hx.
      { clearbody m0. clear - Hm0 Hne. revert m0 Hm0 Hne. destruct l;
        by_month;
        intros; try lia; vm_compute; congruence. }
      lia.
Qed.

Definition vstd (x : date) : Prop :=
  valid_time x /\ 1 <= month x <= 12 /\ 1 <= day x <= mlen (isleap (year x)) (month x).

Lemma vstd_valid x : vstd x <-> valid_date Std x.
Proof.
  unfold vstd, valid_date. split.
  - intros (H1 & H2 & H3). split; [exact H1|]. eexists. split; [apply mlen_spec; eauto|exact H3].
  - intros (H1 & n & H2 & H3). apply mlen_spec in H2 as [H2 ->]. auto.
Qed.

Lemma vad_std i v : 1 <= month i <= 12 -> exists x,
  val_as_date_std i v = Some x /\ vstd x /\ A_std x = v + A_std i.
Proof.
  intros H. unfold val_as_date_std. pose proof H as H'. apply check_month_spec in H'. rewrite H'.
  cbv zeta. destruct (back_loop (v + ref_std i) (year i)) as (s & y & E & Hs & Hsy). rewrite E.
  set (d := Z.quot s 86400).
  assert (Hd : 0 <= d /\ d * 86400 <= s < d * 86400 + 86400) by (unfold d; lia).
  assert (Hd1 : 0 <= d - ndays y (y + Z.quot d 366)).
  { rewrite ndays_N. pose proof (N_diff y (y + Z.quot d 366) ltac:(lia)) as HN.
    set (Na := N (y + Z.quot d 366)) in *. set (Nb := N y) in *. clearbody Na Nb. lia. }
  destruct (fwd_loop (d - ndays y (y + Z.quot d 366)) (y + Z.quot d 366) Hd1) as (d' & y' & E2 & Hd' & HN').
  rewrite E2. destruct (month_find (isleap y') d' Hd') as (m & E3 & Hm & Hdm).
  cbv zeta in E3. rewrite E3. eexists; split; [reflexivity|].
  assert (Hs0 : 0 <= s - d * 86400 < 86400) by lia.
  destruct (time_split _ Hs0) as (T1 & T2 & T3 & T4).
  split.
  - unfold vstd, valid_time; cbn [year month day hour minute second]. repeat split; lia.
  - unfold A_std, tod; cbn [year month day hour minute second].
    rewrite ndays_N in HN'. unfold ref_std in Hsy. unfold tod. cbn [year month day hour minute second] in *.
    clear E E2 E3 T1 T2 T3.
    set (h := Z.quot (s - d * 86400) 3600) in *.
    set (mi := Z.quot (Z.rem (s - d * 86400) 3600) 60) in *.
    set (sc := Z.rem (Z.rem (s - d * 86400) 3600) 60) in *.
    set (M := month2doy (isleap y') m) in *. set (Mi := month2doy (isleap (year i)) (month i)) in *.
    set (N1 := N y') in *. set (N2 := N (y + Z.quot d 366)) in *. set (N3 := N y) in *. set (N4 := N (year i)) in *.
    clearbody h mi sc M Mi N1 N2 N3 N4 d. lia.
Qed.

Lemma earlier_lt_std a b : vstd a -> vstd b -> earlier a b -> A_std a < A_std b.
Proof.
  destruct a as [y m d h mi s], b as [y' m' d' h' mi' s'].
  unfold vstd, valid_time, earlier, A_std, tod; cbn [year month day hour minute second].
  intros (T1 & M1 & D1) (T2 & M2 & D2) [Hy|[-> Hr]].
  - pose proof (N_diff (y + 1) y' ltac:(lia)) as HN. pose proof (N_succ y) as HN2.
    pose proof (month2doy_range (isleap y) m M1) as R1.
    pose proof (month2doy_range (isleap y') m' M2) as R2.
    set (Ma := month2doy (isleap y) m) in *. set (Mb := month2doy (isleap y') m') in *.
    set (La := mlen (isleap y) m) in *. set (Lb := mlen (isleap y') m') in *.
    set (Na := N (y + 1)) in *. set (Nb := N y) in *. set (Nc := N y') in *.
    set (z := b2z (isleap y)) in *. clearbody Ma Mb La Lb Na Nb Nc z. lia.
  - destruct Hr as [Hm|[-> Hr]].
    + pose proof (month2doy_mono (isleap y') m m' M1 M2 Hm) as R.
      set (Ma := month2doy (isleap y') m) in *. set (Mb := month2doy (isleap y') m') in *.
      set (La := mlen (isleap y') m) in *. set (Lb := mlen (isleap y') m') in *.
      set (Nc := N y') in *. clearbody Ma Mb La Lb Nc. lia.
    + set (Mb := month2doy (isleap y') m') in *. set (Lb := mlen (isleap y') m') in *.
      set (Nc := N y') in *. clearbody Mb Lb Nc. lia.
Qed.

(** *** 365-day calendar *)
Definition A_365 (x : date) : Z :=
  (365 * year x + month2doy false (month x) + day x - 1) * 86400 + tod x.
Definition v365 (x : date) : Prop :=
  valid_time x /\ 1 <= month x <= 12 /\ 1 <= day x <= mlen false (month x).

Lemma v365_valid x : v365 x <-> valid_date C365 x.
Proof.
  unfold v365, valid_date. split.
  - intros (H1 & H2 & H3). split; [exact H1|]. eexists. split; [apply mlen365_spec; eauto|exact H3].
  - intros (H1 & n & H2 & H3). apply mlen365_spec in H2 as [H2 ->]. auto.
Qed.

Lemma dav_365 i x : 1 <= month i <= 12 ->
  date_as_val_365 i x = Some (A_365 (wrapm x) - A_365 i).
Proof.
  intros H. unfold date_as_val_365. apply check_month_spec in H. rewrite H.
  rewrite wrap_dy_month, wrap_dy_div. unfold A_365, wrapm, tod.
  cbn [year month day hour minute second]. f_equal.
  generalize (month2doy false ((month x - 1) mod 12 + 1)).
  generalize ((month x - 1) / 12).
  generalize (month2doy false (month i)). intros; lia.
Qed.

Lemma split_day_spec s : exists d h mi sec,
  split_day s = (d, (h, mi, sec)) /\ 0 <= h < 24 /\ 0 <= mi < 60 /\ 0 <= sec < 60 /\
  d * 86400 + h * 3600 + mi * 60 + sec = s.
Proof.
  unfold split_day. cbv zeta.
  destruct (Z.ltb_spec (s - Z.quot s 86400 * 86400) 0) as [Hn|Hn];
   (do 4 eexists; split; [reflexivity|]);
   match goal with |- context [Z.quot ?a 3600] =>
     destruct (time_split a) as (T1 & T2 & T3 & T4); [lia|] end;
   repeat split; try lia.
Qed.

Lemma year_doy_spec L y d : L > 0 -> exists y' d',
  year_doy L y d = (y', d') /\ 1 <= d' <= L /\ L * y' + d' = L * y + d.
Proof.
  intros HL. unfold year_doy.
  destruct (Z.leb_spec d 0) as [Hd|Hd].
  - set (ny := Z.quot (L - d) L).
    assert (Hn : ny * L <= L - d < (ny + 1) * L).
    { unfold ny. rewrite Z.quot_div_nonneg by lia.
      pose proof (Z.div_mod (L - d) L ltac:(lia)). pose proof (Z.mod_pos_bound (L - d) L ltac:(lia)).
      nia. }
    clearbody ny.
    assert (Hx : 1 <= d + L * ny <= L) by nia.
    destruct (Z.gtb_spec (d + L * ny) L); [lia|]. do 2 eexists; split; [reflexivity|]. nia.
  - destruct (Z.gtb_spec d L) as [Hg|Hg].
    + set (ny := Z.quot (d - 1) L).
      assert (Hn : ny * L <= d - 1 < (ny + 1) * L).
      { unfold ny. rewrite Z.quot_div_nonneg by lia.
        pose proof (Z.div_mod (d - 1) L ltac:(lia)). pose proof (Z.mod_pos_bound (d - 1) L ltac:(lia)).
        nia. }
      clearbody ny. do 2 eexists; split; [reflexivity|]. nia.
    + do 2 eexists; split; [reflexivity|]. nia.
Qed.

Lemma month_find365 d : 1 <= d <= 365 -> exists m,
  (let m := Z.quot d 30 + 1 in
   let m := if m >? 12 then 12 else m in
   month_down 13 (month2doy false) (fun t => t >=? d) m) = Some m /\
  1 <= m <= 12 /\ month2doy false m < d <= month2doy false m + mlen false m.
Proof.
  intros Hd. cbv zeta.
  set (m0 := if Z.quot d 30 + 1 >? 12 then 12 else Z.quot d 30 + 1).
  assert (Hm0 : 1 <= m0 <= 12 /\ (m0 = 12 \/ d <= 30 * m0 - 1)).
  { unfold m0. destruct (Z.gtb_spec (Z.quot d 30 + 1) 12); lia. }
  destruct (month_down_spec (month2doy false) (fun t => t >=? d) 13 m0) as (m & H1 & H2 & H3 & H4);
    try lia; auto.
  - assert (month2doy false 1 = 0) by reflexivity. lia.
  - exists m. split; [exact H1|]. split; [lia|]. split; [lia|].
    unfold mlen, b2z. destruct (Z.eqb_spec m 12) as [->|Hne]; [lia|].
    destruct (Z_lt_dec m m0) as [Hlt|Hge].
    + specialize (H4 Hlt). lia.
    + assert (m = m0) as -> by lia. destruct Hm0 as [Hm0 [E|E]]; [lia|].
      assert (30 * m0 - 1 <= month2doy false (m0 + 1)) as Hx.
      { clearbody m0. clear - Hm0 Hne. revert m0 Hm0 Hne.
        by_month;
        intros; try lia; vm_compute; congruence. }
      lia.
Qed.

Lemma vad_365 i v : 1 <= month i <= 12 -> exists x,
  val_as_date_365 i v = Some x /\ v365 x /\ A_365 x = v + A_365 i.
Proof.
  intros H. unfold val_as_date_365. pose proof H as H'. apply check_month_spec in H'. rewrite H'.
  cbv zeta.
  match goal with |- context [split_day ?s] => destruct (split_day_spec s) as (d & h & mi & sec & E & T1 & T2 & T3 & T4) end.
  rewrite E. destruct (year_doy_spec 365 (year i) d ltac:(lia)) as (y' & d' & E2 & Hd' & Hyd). rewrite E2.
  destruct (month_find365 d' Hd') as (m & E3 & Hm & Hdm). cbv zeta in E3. rewrite E3.
  eexists; split; [reflexivity|]. split.
  - unfold v365, valid_time; cbn [year month day hour minute second]. repeat split; lia.
  - unfold A_365, tod; cbn [year month day hour minute second].
    set (M := month2doy false m) in *. set (Mi := month2doy false (month i)) in *. clearbody M Mi. lia.
Qed.

Lemma earlier_lt_365 a b : v365 a -> v365 b -> earlier a b -> A_365 a < A_365 b.
Proof.
  destruct a as [y m d h mi s], b as [y' m' d' h' mi' s'].
  unfold v365, valid_time, earlier, A_365, tod; cbn [year month day hour minute second].
  intros (T1 & M1 & D1) (T2 & M2 & D2) [Hy|[-> Hr]].
  - pose proof (month2doy_range false m M1) as R1.
    pose proof (month2doy_range false m' M2) as R2. unfold b2z in *.
    set (Ma := month2doy false m) in *. set (Mb := month2doy false m') in *.
    set (La := mlen false m) in *. set (Lb := mlen false m') in *.
    clearbody Ma Mb La Lb. lia.
  - destruct Hr as [Hm|[-> Hr]].
    + pose proof (month2doy_mono false m m' M1 M2 Hm) as R.
      set (Ma := month2doy false m) in *. set (Mb := month2doy false m') in *.
      set (La := mlen false m) in *. set (Lb := mlen false m') in *.
      clearbody Ma Mb La Lb. lia.
    + set (Mb := month2doy false m') in *. set (Lb := mlen false m') in *. clearbody Mb Lb. lia.
Qed.

(** *** 360-day calendar *)
Definition A_360 (x : date) : Z :=
  (360 * year x + (month x - 1) * 30 + day x) * 86400 + tod x.
Definition v360 (x : date) : Prop :=
  valid_time x /\ 1 <= month x <= 12 /\ 1 <= day x <= 30.

Lemma v360_valid x : v360 x <-> valid_date C360 x.
Proof.
  unfold v360, valid_date. split.
  - intros (H1 & H2 & H3). split; [exact H1|]. eexists. split; [apply mlen360_spec; eauto|exact H3].
  - intros (H1 & n & H2 & H3). apply mlen360_spec in H2 as [H2 ->]. auto.
Qed.

Lemma dav_360 i x : date_as_val_360 i x = Some (A_360 x - A_360 i).
Proof. unfold date_as_val_360, A_360, ref_360, tod. f_equal. lia. Qed.

Lemma vad_360 i v : exists x,
  val_as_date_360 i v = Some x /\ v360 x /\ A_360 x = v + A_360 i.
Proof.
  unfold val_as_date_360.
  match goal with |- context [split_day ?s] => destruct (split_day_spec s) as (d & h & mi & sec & E & T1 & T2 & T3 & T4) end.
  rewrite E. destruct (year_doy_spec 360 (year i) d ltac:(lia)) as (y' & d' & E2 & Hd' & Hyd). rewrite E2.
  eexists; split; [reflexivity|]. unfold ref_360 in T4. split.
  - unfold v360, valid_time; cbn [year month day hour minute second]. repeat split; lia.
  - unfold A_360, tod; cbn [year month day hour minute second]. lia.
Qed.

Lemma earlier_lt_360 a b : v360 a -> v360 b -> earlier a b -> A_360 a < A_360 b.
Proof.
  destruct a as [y m d h mi s], b as [y' m' d' h' mi' s'].
  unfold v360, valid_time, earlier, A_360, tod; cbn [year month day hour minute second]. lia.
Qed.

(** *** yearless calendar *)
Definition A_yl (x : date) : Z := day x * 86400 + tod x.
Definition vyl (x : date) : Prop := valid_time x /\ year x = 0 /\ month x = 1.

Lemma dav_yl i x : year i = 0 -> month i = 1 -> month x = 1 ->
  date_as_val_yearless i x = Some (A_yl x - A_yl i).
Proof.
  intros H1 H2 H3. unfold date_as_val_yearless, A_yl, tod. rewrite H1, H2, H3. cbn. f_equal. lia.
Qed.

Lemma vad_yl i v : year i = 0 -> month i = 1 -> exists x,
  val_as_date_yearless i v = Some x /\ vyl x /\ A_yl x = v + A_yl i.
Proof.
  intros H1 H2. unfold val_as_date_yearless. rewrite H1, H2. cbn [Z.eqb andb Pos.eqb].
  eexists; split; [reflexivity|].
  unfold vyl, valid_time, A_yl, tod; cbn [year month day hour minute second].
  set (x := v + (day i * 86400 + hour i * 3600 + minute i * 60 + second i)).
  set (r := x - x / 86400 * 86400).
  assert (Hr : 0 <= r < 86400) by (unfold r; lia).
  assert (Hx : x / 86400 * 86400 + r = x) by (unfold r; lia).
  set (q := x / 86400) in *. unfold x in *. clearbody q r. lia.
Qed.

Lemma earlier_lt_yl a b : vyl a -> vyl b -> earlier a b -> A_yl a < A_yl b.
Proof.
  destruct a as [y m d h mi s], b as [y' m' d' h' mi' s'].
  unfold vyl, valid_time, earlier, A_yl, tod; cbn [year month day hour minute second]. lia.
Qed.

(** *** Uniform interface over the calendars *)
Definition A (c : cal) (x : date) : Z :=
  match c with Std => A_std x | C365 => A_365 x | C360 => A_360 x | Yearless => A_yl x end.

Lemma vyl_valid x : vyl x <-> valid_date Yearless x.
Proof. unfold vyl, valid_date; tauto. Qed.

(** Dates whose month needs no wrapping, or for which it is irrelevant. *)
Definition good_date (c : cal) (x : date) : Prop :=
  match c with Std | C365 => 1 <= month x <= 12 | C360 => True | Yearless => month x = 1 end.

Lemma valid_good c x : valid_date c x -> good_date c x.
Proof.
  destruct c; cbn [good_date].
  - rewrite <- vstd_valid. unfold vstd; tauto.
  - rewrite <- v365_valid. unfold v365; tauto.
  - tauto.
  - rewrite <- vyl_valid. unfold vyl; tauto.
Qed.

Lemma start_good c x : good_start c x -> good_date c x.
Proof. destruct c; cbn; tauto. Qed.

Lemma dav_A c i x : good_start c i -> good_date c x -> c_date_as_val c i x = Some (A c x - A c i).
Proof.
  destruct c; cbn [good_start good_date c_date_as_val A]; intros H1 H2.
  - rewrite dav_std, wrapm_id by assumption; reflexivity.
  - rewrite dav_365, wrapm_id by assumption; reflexivity.
  - apply dav_360.
  - apply dav_yl; tauto.
Qed.

Lemma vad_A c i v : good_start c i -> exists x,
  c_val_as_date c i v = Some x /\ valid_date c x /\ A c x = v + A c i.
Proof.
  destruct c; cbn [good_start c_val_as_date A]; intros H1.
  - destruct (vad_std i v H1) as (x & ? & V & ?). exists x. rewrite <- vstd_valid. auto.
  - destruct (vad_365 i v H1) as (x & ? & V & ?). exists x. rewrite <- v365_valid. auto.
  - destruct (vad_360 i v) as (x & ? & V & ?). exists x. rewrite <- v360_valid. auto.
  - destruct (vad_yl i v (proj1 H1) (proj2 H1)) as (x & ? & V & ?). exists x. rewrite <- vyl_valid. auto.
Qed.

Lemma earlier_lt c a b : valid_date c a -> valid_date c b -> earlier a b -> A c a < A c b.
Proof.
  destruct c; cbn [A].
  - rewrite <- !vstd_valid. apply earlier_lt_std.
  - rewrite <- !v365_valid. apply earlier_lt_365.
  - rewrite <- !v360_valid. apply earlier_lt_360.
  - rewrite <- !vyl_valid. apply earlier_lt_yl.
Qed.

Lemma earlier_total a b : earlier a b \/ a = b \/ earlier b a.
Proof.
  destruct a as [y m d h mi s], b as [y' m' d' h' mi' s']. unfold earlier; cbn [year month day hour minute second].
  destruct (Z.lt_trichotomy y y') as [?|[->|?]]; [left; lia| |right; right; lia].
  destruct (Z.lt_trichotomy m m') as [?|[->|?]]; [left; lia| |right; right; lia].
  destruct (Z.lt_trichotomy d d') as [?|[->|?]]; [left; lia| |right; right; lia].
  destruct (Z.lt_trichotomy h h') as [?|[->|?]]; [left; lia| |right; right; lia].
  destruct (Z.lt_trichotomy mi mi') as [?|[->|?]]; [left; lia| |right; right; lia].
  destruct (Z.lt_trichotomy s s') as [?|[->|?]]; [left; lia| |right; right; lia].
  right; left; reflexivity.
Qed.

Lemma earlier_iff c a b : valid_date c a -> valid_date c b -> (earlier a b <-> A c a < A c b).
Proof.
  intros Ha Hb. split; [apply earlier_lt; assumption|].
  intros H. destruct (earlier_total a b) as [E|[->|E]]; [exact E|lia|].
  pose proof (earlier_lt c b a Hb Ha E). lia.
Qed.

Lemma A_inj c a b : valid_date c a -> valid_date c b -> A c a = A c b -> a = b.
Proof.
  intros Ha Hb H. destruct (earlier_total a b) as [E|[->|E]]; auto.
  - pose proof (earlier_lt c a b Ha Hb E); lia.
  - pose proof (earlier_lt c b a Hb Ha E); lia.
Qed.

(** *** The property lemmas *)
Lemma val_date_val c i v : good_start c i ->
  exists d, c_val_as_date c i v = Some d /\ valid_date c d /\ c_date_as_val c i d = Some v.
Proof.
  intros H. destruct (vad_A c i v H) as (x & H1 & H2 & H3). exists x. split; [exact H1|].
  split; [exact H2|]. rewrite dav_A by (auto using valid_good). f_equal. lia.
Qed.

Lemma date_val_date c i d : good_start c i -> valid_date c d ->
  exists v, c_date_as_val c i d = Some v /\ c_val_as_date c i v = Some d.
Proof.
  intros H Hd. exists (A c d - A c i). split; [apply dav_A; auto using valid_good|].
  destruct (vad_A c i (A c d - A c i) H) as (x & H1 & H2 & H3). rewrite H1. f_equal.
  apply (A_inj c); auto. lia.
Qed.

Lemma order_vals c i a b : good_start c i -> valid_date c a -> valid_date c b ->
  exists va vb, c_date_as_val c i a = Some va /\ c_date_as_val c i b = Some vb /\
    (earlier a b <-> va < vb).
Proof.
  intros H Ha Hb. do 2 eexists. split; [apply dav_A; auto using valid_good|].
  split; [apply dav_A; auto using valid_good|]. rewrite (earlier_iff c) by assumption. lia.
Qed.

Lemma month_length_bounds c y m n : month_length c y m n -> 1 <= m <= 12 /\ 28 <= n <= 31.
Proof. intros H; inversion H; subst; lia. Qed.

Lemma some_length c y m : c <> Yearless -> 1 <= m <= 12 -> exists n, month_length c y m n /\ 1 <= 1 <= n.
Proof.
  intros Hc Hm. destruct c; try congruence.
  - exists (mlen (isleap y) m). split; [apply mlen_spec; auto|].
    pose proof (month2doy_range (isleap y) m Hm). lia.
  - exists (mlen false m). split; [apply mlen365_spec; auto|].
    pose proof (month2doy_range false m Hm). lia.
  - exists 30. split; [constructor; lia|lia].
Qed.

Lemma tick_valid c a b : valid_date c a -> tick c a b -> valid_date c b.
Proof.
  intros [Ht Hv] T. unfold valid_date, valid_time in *.
  inversion T; subst; cbn [year month day hour minute second] in *; (split; [lia|]); try exact Hv.
  - destruct c; try congruence; exists n; (split; [assumption|lia]).
  - pose proof (month_length_bounds _ _ _ _ H0).
    pose proof (some_length c y (m + 1) H ltac:(lia)) as K.
    destruct c; try congruence; exact K.
  - pose proof (some_length c (y + 1) 1 H ltac:(lia)) as K.
    destruct c; try congruence; exact K.
Qed.

Lemma tick_A c a b : valid_date c a -> tick c a b -> A c b = A c a + 1.
Proof.
  intros Hv T. inversion T; subst; try (destruct c; try congruence);
    unfold A, A_std, A_365, A_360, A_yl, tod; cbn [year month day hour minute second]; try lia.
  - apply mlen_spec in H0 as [Hm ->]. unfold mlen. destruct (Z.eqb_spec m 12); [lia|].
    generalize (month2doy (isleap y) (m + 1)) (month2doy (isleap y) m) (N y). intros; lia.
  - apply mlen365_spec in H0 as [Hm ->]. unfold mlen. destruct (Z.eqb_spec m 12); [lia|].
    generalize (month2doy false (m + 1)) (month2doy false m). intros; lia.
  - apply mlen360_spec in H0 as [Hm ->]. lia.
  - apply mlen_spec in H0 as [Hm ->]. unfold mlen. pose proof (N_succ y) as HN.
    change (12 =? 12) with true. cbv iota.
    replace (month2doy (isleap (y+1)) 1) with 0 by (destruct (isleap (y+1)); reflexivity).
    revert HN. generalize (N (y + 1)) (N y) (b2z (isleap y)) (month2doy (isleap y) 12). intros; lia.
  - apply mlen365_spec in H0 as [Hm ->]. unfold mlen. change (12 =? 12) with true. cbv iota.
    replace (month2doy false 1) with 0 by reflexivity. replace (b2z false) with 0 by reflexivity.
    generalize (month2doy false 12). intros; lia.
  - apply mlen360_spec in H0 as [Hm ->]. lia.
Qed.

Lemma tick_val c i a b : good_start c i -> valid_date c a -> tick c a b ->
  valid_date c b /\
  exists va, c_date_as_val c i a = Some va /\ c_date_as_val c i b = Some (va + 1).
Proof.
  intros H Ha T. pose proof (tick_valid c a b Ha T) as Hb. split; [exact Hb|].
  exists (A c a - A c i). split; [apply dav_A; auto using valid_good|].
  rewrite dav_A by auto using valid_good. f_equal. rewrite (tick_A c a b Ha T). lia.
Qed.

Lemma tick_exists c a : valid_date c a -> exists b, tick c a b.
Proof.
  destruct a as [y m d h mi s]. intros [Ht Hv].
  unfold valid_time in Ht; cbn [year month day hour minute second] in *.
  destruct (Z.eq_dec s 59) as [->|Hs]; [|eexists; apply t_sec; lia].
  destruct (Z.eq_dec mi 59) as [->|Hmi]; [|eexists; apply t_min; lia].
  destruct (Z.eq_dec h 23) as [->|Hh]; [|eexists; apply t_hour; lia].
  destruct c.
  4: { destruct Hv as [-> ->]. eexists; apply t_count; reflexivity. }
  all: destruct Hv as (n & Hl & Hd); destruct (Z.eq_dec d n) as [->|Hdn];
    [|eexists; eapply t_day; [congruence|exact Hl|lia]];
    pose proof (month_length_bounds _ _ _ _ Hl);
    destruct (Z.eq_dec m 12) as [->|Hm];
    [eexists; eapply t_year; [congruence|exact Hl]
    |eexists; eapply t_month; [congruence|exact Hl|lia]].
Qed.

Lemma start_is_zero c i : good_start c i -> c_date_as_val c i i = Some 0.
Proof. intros H. rewrite dav_A by auto using start_good. f_equal; lia. Qed.

Lemma wrapm_shift y m d h mi s k : wrapm (mkdate y (m + 12 * k) d h mi s) = wrapm (mkdate (y + k) m d h mi s).
Proof.
  unfold wrapm; cbn [year month day hour minute second].
  replace (m + 12 * k - 1) with (m - 1 + k * 12) by lia.
  rewrite Z.div_add, Z_mod_plus_full by lia. f_equal; lia.
Qed.

Lemma month_wrap c i y m d h mi s k : c <> Yearless ->
  c_date_as_val c i (mkdate y (m + 12 * k) d h mi s) = c_date_as_val c i (mkdate (y + k) m d h mi s).
Proof.
  intros Hc. destruct c; cbn [c_date_as_val]; try congruence.
  - destruct (check_month (month i)) eqn:E.
    + apply check_month_spec in E. rewrite !dav_std by assumption. now rewrite wrapm_shift.
    + unfold date_as_val_std. now rewrite E.
  - destruct (check_month (month i)) eqn:E.
    + apply check_month_spec in E. rewrite !dav_365 by assumption. now rewrite wrapm_shift.
    + unfold date_as_val_365. now rewrite E.
  - rewrite !dav_360. f_equal. unfold A_360, tod; cbn [year month day hour minute second]. lia.
Qed.


Lemma dav_total c i x : good_start c i -> good_any c x -> exists a,
  c_date_as_val c i x = Some (a - A c i) /\
  forall j, good_start c j -> c_date_as_val c j x = Some (a - A c j).
Proof.
  intros H Hx. destruct c; cbn [c_date_as_val good_start good_any A] in *.
  - exists (A_std (wrapm x)). split; [now apply dav_std|]. intros; now apply dav_std.
  - exists (A_365 (wrapm x)). split; [now apply dav_365|]. intros; now apply dav_365.
  - exists (A_360 x). split; [apply dav_360|]. intros; apply dav_360.
  - exists (A_yl x). split; [apply dav_yl; tauto|]. intros j [? ?]; apply dav_yl; auto.
Qed.

Lemma diff_additive c a b x : good_start c a -> good_start c b -> good_any c x ->
  exists ab bx ax, c_date_as_val c a b = Some ab /\ c_date_as_val c b x = Some bx /\
    c_date_as_val c a x = Some ax /\ ab + bx = ax.
Proof.
  intros Ha Hb Hx. destruct (dav_total c a x Ha Hx) as (t & E1 & E2).
  do 3 eexists. split; [apply dav_A; auto using start_good|]. split; [apply E2, Hb|].
  split; [exact E1|]. lia.
Qed.

Lemma diff_antisym c a b : good_start c a -> good_start c b ->
  exists ab ba, c_date_as_val c a b = Some ab /\ c_date_as_val c b a = Some ba /\ ab = - ba.
Proof.
  intros Ha Hb. do 2 eexists. split; [apply dav_A; auto using start_good|].
  split; [apply dav_A; auto using start_good|]. lia.
Qed.

(** rebasing: changing the start date does not change the dates *)
Lemma rebase c i j v : good_start c i -> good_start c j ->
  exists d w, c_val_as_date c i v = Some d /\ c_date_as_val c j d = Some w /\ c_val_as_date c j w = Some d.
Proof.
  intros Hi Hj. destruct (val_date_val c i v Hi) as (d & H1 & H2 & _).
  destruct (date_val_date c j d Hj H2) as (w & H3 & H4). exists d, w. auto.
Qed.

(** overflowing fields: any integer fields denote the instant obtained by carrying *)
Lemma carry_fields c i y m d h mi s : good_start c i -> good_any c (mkdate y m d h mi s) ->
  exists v0, c_date_as_val c i (mkdate y m 1 0 0 0) = Some v0 /\
    c_date_as_val c i (mkdate y m d h mi s) = Some (v0 + (d - 1) * 86400 + h * 3600 + mi * 60 + s).
Proof.
  intros H Hx. destruct c; cbn [c_date_as_val good_start good_any month] in *.
  - rewrite !dav_std by assumption. eexists; split; [reflexivity|]. f_equal.
    unfold A_std, tod, wrapm; cbn [year month day hour minute second].
    generalize (isleap (y + (m - 1) / 12)); intros l.
    generalize (month2doy l ((m - 1) mod 12 + 1)) (N (y + (m - 1) / 12)).
    intros; set (Z0 := (_ + _ + day i - 1) * 86400 + _). clearbody Z0. lia.
  - rewrite !dav_365 by assumption. eexists; split; [reflexivity|]. f_equal.
    unfold A_365, tod, wrapm; cbn [year month day hour minute second].
    generalize (month2doy false ((m - 1) mod 12 + 1)) ((m - 1) / 12) (month2doy false (month i)).
    intros; lia.
  - rewrite !dav_360. eexists; split; [reflexivity|]. f_equal.
    unfold A_360, tod; cbn [year month day hour minute second]. lia.
  - rewrite !dav_yl by tauto. eexists; split; [reflexivity|]. f_equal.
    unfold A_yl, tod; cbn [year month day hour minute second]. lia.
Qed.
