(** Proofs about the tick generators of years, months and days. *)
From Coq Require Import ZArith List Bool Lia ZifyBool QArith_base Qround Qabs QArith Lqa Znumtheory.
From Verif Require Import CalModel CalSpec CalProofs CalPyProofs StencilModel TickModel TickProofs TickClock.
Import ListNotations.
Open Scope Z_scope.

(** the first second of month number n, counted from January of year 0 *)
Definition first_of (n : Z) : date := mkdate (n / 12) (n mod 12 + 1) 1 0 0 0.
Definition mon (c : cal) (n : Z) : Z := A c (first_of n).

Lemma first_valid c n : c <> Yearless -> valid_date c (first_of n).
Proof.
  intros Hc. split; [unfold valid_time; cbn; lia|]. pose proof (Z.mod_pos_bound n 12 ltac:(lia)) as Hb. destruct (some_length c (n / 12) (n mod 12 + 1) Hc ltac:(lia)) as (l & Hl & H1).
  destruct c; try contradiction; exists l; split; auto.
Qed.
Lemma mon_number c y m : 1 <= m <= 12 -> mon c (12 * y + m - 1) = A c (mkdate y m 1 0 0 0).
Proof.
  intros H. unfold mon, first_of. replace (12 * y + m - 1) with (m - 1 + y * 12) by lia. rewrite Z.div_add, Z_mod_plus_full by lia. rewrite Z.div_small, Z.mod_small by lia. do 2 f_equal; lia.
Qed.
Lemma mon_increasing c : c <> Yearless -> forall n, mon c n < mon c (n + 1).
Proof.
  intros Hc n. apply earlier_lt; try (apply first_valid; exact Hc). unfold earlier, first_of. cbn [year month day hour minute second].
  pose proof (Z.div_mod n 12 ltac:(lia)) as E1. pose proof (Z.mod_pos_bound n 12 ltac:(lia)). pose proof (Z.div_mod (n + 1) 12 ltac:(lia)) as E2. pose proof (Z.mod_pos_bound (n + 1) 12 ltac:(lia)). lia.
Qed.
Lemma valid_months c x : c <> Yearless -> valid_date c x -> 1 <= month x <= 12.
Proof. intros Hc Hx. destruct Hx as [_ Hx]. destruct c; try contradiction; destruct Hx as (n & Hn & _); apply month_length_bounds in Hn; lia. Qed.
Lemma in_month c x : c <> Yearless -> valid_date c x -> mon c (12 * year x + month x - 1) <= A c x < mon c (12 * year x + month x - 1 + 1).
Proof.
  intros Hc Hx. pose proof (valid_months c x Hc Hx) as Hm. split.
  - rewrite mon_number by exact Hm. destruct x as [y m d h mi s]. cbn [year month] in *. rewrite (A_fields c y m d h mi s). destruct Hx as [Ht Hx]. unfold valid_time in Ht. cbn [hour minute second] in Ht.
    assert (1 <= d) by (destruct c; try contradiction; destruct Hx as (n & _ & Hd); cbn in Hd; lia). lia.
  - apply earlier_lt; [exact Hx|apply first_valid; exact Hc|]. unfold earlier, first_of. cbn [year month day hour minute second].
    set (n := 12 * year x + month x - 1 + 1). pose proof (Z.div_mod n 12 ltac:(lia)) as E1. pose proof (Z.mod_pos_bound n 12 ltac:(lia)). unfold n in *. lia.
Qed.
Lemma any_month c i y m d h mi s : c <> Yearless -> good_start c i ->
  c_date_as_val c i (mkdate y m d h mi s) = Some (mon c (12 * y + m - 1) + (d - 1) * 86400 + h * 3600 + mi * 60 + s - A c i).
Proof.
  intros Hc Hi. pose proof (Z.div_mod (m - 1) 12 ltac:(lia)) as E. pose proof (Z.mod_pos_bound (m - 1) 12 ltac:(lia)) as B.
  replace m with ((m - 1) mod 12 + 1 + 12 * ((m - 1) / 12)) at 1 by lia. rewrite month_wrap by exact Hc.
  rewrite dav_A; [|exact Hi|destruct c; try contradiction; cbn; auto; lia]. f_equal. rewrite A_fields, <- mon_number by lia. replace (12 * (y + (m - 1) / 12) + ((m - 1) mod 12 + 1) - 1) with (12 * y + m - 1) by lia. lia.
Qed.

Section Months.
Context (c : cal) (s : pdate) (u : unit) (Hs : good_start c (get_dates s)) (Hc : c <> Yearless) (mult : Z) (Hm : 0 < mult).

Lemma dav_any p : date_as_val c s u p = Some (value c s u (mon c (12 * dflt (pyear p) 0 + dflt (pmonth p) 1 - 1) + (dflt (pday p) 1 - 1) * 86400 + dflt (phour p) 0 * 3600 + dflt (pminute p) 0 * 60 + dflt (psecond p) 0)).
Proof. unfold date_as_val, get_dates at 2. rewrite (any_month c _ _ _ _ _ _ _ Hc Hs). reflexivity. Qed.
Lemma dav_first y m : date_as_val c s u (fields (Some y) (Some m) None None None None) = Some (value c s u (mon c (12 * y + m - 1))).
Proof. rewrite dav_any. cbn [fields pyear pmonth pday phour pminute psecond dflt]. do 2 f_equal. lia. Qed.
Lemma dav_january y : date_as_val c s u (fields (Some y) None None None None None) = Some (value c s u (mon c (12 * y))).
Proof. rewrite dav_any. cbn [fields pyear pmonth pday phour pminute psecond dflt]. do 2 f_equal. replace (12 * y + 1 - 1) with (12 * y) by lia. lia. Qed.
Lemma fine_year : forall y, mon c (12 * y) < mon c (12 * (y + 1)).
Proof. intros y. apply (coarse_grid (mon c) (mon_increasing c Hc) 12). lia. Qed.
Definition year_grid (k : Z) : Z := mon c (12 * (mult * k)).
Lemma year_increasing : forall k, year_grid k < year_grid (k + 1).
Proof. intros k. apply (grid_lt (mon c) (mon_increasing c Hc)). nia. Qed.
Lemma in_year x : valid_date c x -> mon c (12 * year x) <= A c x < mon c (12 * (year x + 1)).
Proof.
  intros Hx. pose proof (in_month c x Hc Hx) as [H1 H2]. pose proof (valid_months c x Hc Hx).
  pose proof (grid_gap (mon c) (mon_increasing c Hc) (12 * year x) (12 * year x + month x - 1)). pose proof (grid_gap (mon c) (mon_increasing c Hc) (12 * year x + month x - 1 + 1) (12 * (year x + 1))). lia.
Qed.
(** the year returned by get_tick_prior *)
Lemma year_prior_spec v : exists k, year_prior c s u mult v = Some (fields (Some (mult * k)) None None None None None) /\
  (inject_Z (year_grid k) < instant c s u v)%Q /\ (instant c s u v <= inject_Z (year_grid (k + 1)))%Q.
Proof.
  unfold year_prior. destruct (vad_inst c s u Hs v) as (x & -> & Hx & Hn). cbn [bind full pyear dflt]. rewrite dav_january. cbn [bind].
  pose proof (in_year x Hx) as Hin. destruct (qgtb v (value c s u (mon c (12 * year x)))) eqn:Eq.
  - apply qgtb_value in Eq. destruct (fine_next (fun y => mon c (12 * y)) fine_year (year x) (A c x) _ Hin Hn Eq) as [L U].
    exists ((year x + 1 - 1) / mult). split; [rewrite (Z.mul_comm mult); reflexivity|]. unfold year_grid. apply (coarse (fun y => mon c (12 * y)) fine_year (year x + 1) mult _ Hm); [|exact U]. replace (year x + 1 - 1) with (year x) by lia. exact L.
  - destruct (fine_same (fun y => mon c (12 * y)) fine_year (year x) (A c x) (instant c s u v) Hin Hn) as (E & L & U); [rewrite <- qgtb_value, Eq; discriminate|].
    exists ((year x - 1) / mult). split; [rewrite (Z.mul_comm mult); reflexivity|]. unfold year_grid. exact (coarse (fun y => mon c (12 * y)) fine_year (year x) mult _ Hm L U).
Qed.
Lemma year_priors : priors c s u year_grid (year_prior c s u mult).
Proof. intros v. destruct (year_prior_spec v) as (k & E & H). exists k, (fields (Some (mult * k)) None None None None None). split; [exact E|]. split; [apply dav_january|exact H]. Qed.
Lemma at_first x n : valid_date c x -> A c x = mon c n -> x = first_of n.
Proof. intros Hx E. apply (A_inj c); [exact Hx|apply first_valid; exact Hc|exact E]. Qed.
Lemma year_nexts : nexts c s u year_grid (year_next c s u mult).
Proof.
  intros k. unfold year_next. destruct (vad_value c s u Hs (year_grid k)) as (x & -> & Hx & Ea). cbn [bind]. apply at_first in Ea; [|exact Hx]. subst x.
  rewrite dav_any. unfold first_of. cbn [with_year full year month day hour minute second pyear pmonth pday phour pminute psecond dflt]. unfold year_grid.
  replace (12 * (mult * k)) with ((mult * k) * 12) by lia. rewrite Z.div_mul, Z.mod_mul by lia. do 2 f_equal. replace (12 * (mult * k + mult) + (0 + 1) - 1) with (12 * (mult * (k + 1))) by lia. lia.
Qed.

Context (Hd : (mult | 12)).
Definition month_grid (k : Z) : Z := mon c (mult * k).
Lemma month_increasing : forall k, month_grid k < month_grid (k + 1).
Proof. intros k. apply (grid_lt (mon c) (mon_increasing c Hc)). nia. Qed.
Lemma month_prior_spec v : exists k, month_prior c s u mult v = Some (full (first_of (mult * k))) /\
  (inject_Z (month_grid k) < instant c s u v)%Q /\ (instant c s u v <= inject_Z (month_grid (k + 1)))%Q.
Proof.
  unfold month_prior. destruct (vad_inst c s u Hs v) as (x & -> & Hx & Hn). cbn [bind full pyear pmonth dflt]. rewrite dav_first. cbn [bind].
  pose proof (in_month c x Hc Hx) as Hin. set (q := 12 * year x + month x - 1) in *.
  assert (exists y m, (if qgtb v (value c s u (mon c q)) then bind (wrapdate c s u true (fields (Some (year x)) (Some (month x + 1)) None None None None)) (fun dt => Some (dflt (pyear dt) 1, dflt (pmonth dt) 1)) else Some (year x, month x)) = Some (y, m) /\
    (inject_Z (mon c (12 * y + m - 1 - 1)) < instant c s u v)%Q /\ (instant c s u v <= inject_Z (mon c (12 * y + m - 1)))%Q) as (y & m & -> & L & U).
  { destruct (qgtb v (value c s u (mon c q))) eqn:Eq.
    - apply qgtb_value in Eq. destruct (wrap_value c s u Hs (fields (Some (year x)) (Some (month x + 1)) None None None None) (mon c (q + 1))) as (x' & -> & Hx' & Ea'); [rewrite dav_first; do 3 f_equal; lia|].
      apply at_first in Ea'; [|exact Hx']. subst x'. cbn [bind full pyear pmonth dflt]. eexists _, _. split; [reflexivity|]. unfold first_of. cbn [year month].
      pose proof (Z.div_mod (q + 1) 12 ltac:(lia)). replace (12 * ((q + 1) / 12) + ((q + 1) mod 12 + 1) - 1) with (q + 1) by lia. replace (q + 1 - 1) with q by lia. exact (fine_next (mon c) (mon_increasing c Hc) q _ _ Hin Hn Eq).
    - destruct (fine_same (mon c) (mon_increasing c Hc) q (A c x) (instant c s u v) Hin Hn) as (E & L & U); [rewrite <- qgtb_value, Eq; discriminate|]. exists (year x), (month x). split; [reflexivity|]. fold q. auto. }
  cbn [bind]. set (e := 12 * y + m - 1) in *.
  assert (12 * y + ((m - 2) / mult * mult + 1) - 1 = mult * ((e - 1) / mult)) as En.
  { destruct Hd as (w & Hw). assert (y * w * mult = 12 * y) as Ew by (rewrite Hw; ring). replace (e - 1) with (m - 2 + y * w * mult) by (unfold e; lia). rewrite Z.div_add by lia. set (z := (m - 2) / mult). rewrite Z.mul_add_distr_l. replace (mult * (y * w)) with (12 * y) by (rewrite <- Ew; ring). lia. }
  destruct (wrap_value c s u Hs (fields (Some y) (Some ((m - 2) / mult * mult + 1)) None None None None) (mon c (mult * ((e - 1) / mult)))) as (d & Ed & Vd & Ad); [rewrite dav_first, En; reflexivity|].
  rewrite Ed. apply at_first in Ad; [|exact Vd]. subst d. exists ((e - 1) / mult). split; [reflexivity|]. exact (coarse (mon c) (mon_increasing c Hc) e mult _ Hm L U).
Qed.
Lemma dav_full_first n : date_as_val c s u (full (first_of n)) = Some (value c s u (mon c n)).
Proof. rewrite (dav_inst c s u Hs); [rewrite get_full; reflexivity|]. rewrite get_full. apply valid_good, first_valid, Hc. Qed.
Lemma month_priors : priors c s u month_grid (month_prior c s u mult).
Proof. intros v. destruct (month_prior_spec v) as (k & E & H). exists k, (full (first_of (mult * k))). split; [exact E|]. split; [apply dav_full_first|exact H]. Qed.
Lemma month_nexts : nexts c s u month_grid (month_next c s u mult).
Proof.
  intros k. unfold month_next. destruct (vad_value c s u Hs (month_grid k)) as (x & -> & Hx & Ea). cbn [bind]. apply at_first in Ea; [|exact Hx]. subst x.
  rewrite dav_any. unfold first_of. cbn [with_month full year month day hour minute second pyear pmonth pday phour pminute psecond dflt]. unfold month_grid.
  pose proof (Z.div_mod (mult * k) 12 ltac:(lia)) as E. do 2 f_equal. replace (12 * (mult * k / 12) + ((mult * k) mod 12 + 1 + mult) - 1) with (mult * (k + 1)) by lia. lia.
Qed.
End Months.

(** *** days of the month, one by one *)
Section Days.
Context (c : cal) (s : pdate) (u : unit) (Hs : good_start c (get_dates s)) (Hc : c <> Yearless).
Definition midnight (k : Z) : Z := 86400 * k.
Lemma midnight_increasing : forall k, midnight k < midnight (k + 1).
Proof. intros k. unfold midnight. lia. Qed.
Lemma day_facts x : valid_date c x -> exists q r, A c x = midnight q + r /\ 0 <= r < 86400 /\ mon c (12 * year x + month x - 1) + (day x - 1) * 86400 = midnight q /\ (r = 0 <-> hour x = 0 /\ minute x = 0 /\ second x = 0).
Proof.
  intros Hx. pose proof (valid_months c x Hc Hx) as Hm. destruct x as [y m d h mi sec]. destruct Hx as [Ht _]. unfold valid_time in Ht. cbn [year month day hour minute second] in *. destruct (A_days c y m) as (D & HD).
  exists (D + d - 1), (h * 3600 + mi * 60 + sec). rewrite mon_number by exact Hm. rewrite (A_fields c y m d h mi sec), HD. unfold midnight. lia.
Qed.
Lemma month_midnight n : exists D, mon c n = midnight D.
Proof. unfold mon, first_of, midnight. apply A_days. Qed.
Lemma days_less (n : Z) : qltb ((86400 * n) # unitfactor Days) (inject_Z 1 / 2) = (n <? 1).
Proof.
  unfold qltb. assert ((86400 * n) # unitfactor Days == inject_Z n)%Q as -> by (unfold Qeq; cbn [Qnum Qden inject_Z unitfactor]; lia). destruct (Z.ltb_spec n 1) as [H|H].
  - apply negb_true_iff, not_true_is_false. rewrite Qle_bool_iff. intros H'. assert (inject_Z n <= inject_Z 0)%Q as Hc' by (rewrite <- Zle_Qle; lia). change (inject_Z 0) with 0%Q in Hc'. change (inject_Z 1 / 2)%Q with (1 # 2)%Q in H'. lra.
  - apply negb_false_iff. rewrite Qle_bool_iff. assert (inject_Z 1 <= inject_Z n)%Q as Hc' by (rewrite <- Zle_Qle; lia). change (inject_Z 1) with 1%Q in *. change (1 / 2)%Q with (1 # 2)%Q. lra.
Qed.
Lemma full_good x : valid_date c x -> good_date c (get_dates (full x)).
Proof. intros H. rewrite get_full. apply valid_good. exact H. Qed.
Lemma mday_priors : priors c s u midnight (mday_prior c s u 1).
Proof.
  intros v. unfold mday_prior. destruct (vad_inst c s u Hs v) as (x & -> & Hx & Hn). cbn [bind full pyear pmonth pday dflt]. destruct (day_facts x Hx) as (q & r & Ea & Hr & Eq & _).
  rewrite (dav_any c s u Hs Hc). cbn [fields pyear pmonth pday phour pminute psecond dflt]. rewrite Eq. cbn [bind]. replace (midnight q + 0 * 3600 + 0 * 60 + 0) with (midnight q) by lia.
  match goal with |- context [bind (if ?b then ?p else ?z) ?f] => assert (exists x' e', (if b then p else z) = Some (year x', month x', day x') /\ valid_date c x' /\ A c x' = midnight e' /\ (inject_Z (midnight (e' - 1)) < instant c s u v)%Q /\ (instant c s u v <= inject_Z (midnight e'))%Q) as (x' & e & Ee & Hx' & Ea' & L & U) end.
  { destruct (qgtb v (value c s u (midnight q))) eqn:Eg.
    - apply qgtb_value in Eg. match goal with |- context [wrapdate c s u true ?p] => destruct (wrap_value c s u Hs p (midnight (q + 1))) as (x' & -> & Hx' & Ea') end.
      { rewrite (dav_any c s u Hs Hc). cbn [fields pyear pmonth pday phour pminute psecond dflt]. do 2 f_equal. unfold midnight in *. lia. }
      exists x', (q + 1). cbn [bind full pyear pmonth pday dflt]. split; [reflexivity|]. split; [exact Hx'|]. split; [exact Ea'|]. replace (q + 1 - 1) with q by lia. apply (fine_next midnight midnight_increasing q (A c x)); [unfold midnight in *; lia|exact Hn|exact Eg].
    - destruct (fine_same midnight midnight_increasing q (A c x) (instant c s u v)) as (E & L & U); [unfold midnight in *; lia|exact Hn|rewrite <- qgtb_value, Eg; discriminate|]. exists x, q. auto. }
  rewrite Ee. cbn [bind]. destruct (day_facts x' Hx') as (q' & r' & Ea2 & Hr' & Eq' & _). assert (q' = e) as -> by (unfold midnight in *; lia).
  replace ((day x' - 2) / 1 * 1 + 1) with (day x' - 1) by (rewrite Z.div_1_r; lia).
  match goal with |- context [wrapdate c s u true ?p] => destruct (wrap_value c s u Hs p (midnight (e - 1))) as (d & Ed & Vd & Ad) end.
  { rewrite (dav_any c s u Hs Hc). cbn [fields pyear pmonth pday phour pminute psecond dflt]. do 2 f_equal. unfold midnight in *. lia. }
  rewrite Ed. cbn [bind].
  match goal with |- context [wrapdate c s u true ?p] => destruct (wrap_value c s u Hs p (mon c (12 * year x' + month x' - 1 + 1))) as (d1 & Ed1 & Vd1 & Ad1) end.
  { rewrite (dav_any c s u Hs Hc). cbn [fields pyear pmonth pday phour pminute psecond dflt]. do 2 f_equal. replace (12 * year x' + (month x' + 1) - 1) with (12 * year x' + month x' - 1 + 1) by lia. lia. }
  rewrite Ed1. cbn [bind]. rewrite (diff_inst c Days (full d) (full d1) (good_start_full c d Vd) (full_good d1 Vd1)), !get_full, Ad, Ad1. cbn [bind].
  pose proof (in_month c x' Hc Hx') as [_ Hlt]. destruct (month_midnight (12 * year x' + month x' - 1 + 1)) as (D & HD). rewrite HD in *. replace (midnight D - midnight (e - 1)) with (86400 * (D - (e - 1))) by (unfold midnight; lia). rewrite days_less.
  destruct (Z.ltb_spec (D - (e - 1)) 1) as [H|H]; [exfalso; unfold midnight in *; lia|].
  exists (e - 1), (full d). split; [reflexivity|]. split; [rewrite (dav_inst c s u Hs _ (full_good d Vd)), get_full, Ad; reflexivity|]. split; [exact L|]. replace (e - 1 + 1) with e by lia. exact U.
Qed.
Lemma mday_nexts : nexts c s u midnight (mday_next c s u 1).
Proof.
  intros k. unfold mday_next. destruct (vad_value c s u Hs (midnight k)) as (x & -> & Hx & Ea). cbn [bind]. destruct (day_facts x Hx) as (q & r & Ea2 & Hr & Eq & Hz). assert (q = k /\ r = 0) as [-> Er] by (unfold midnight in *; lia).
  apply Hz in Er as (Eh & Emi & Es). pose proof (valid_months c x Hc Hx) as Hm.
  assert (date_as_val c s u (with_day (full x) (dflt (pday (full x)) 1 + 1)) = Some (value c s u (midnight (k + 1)))) as E1.
  { rewrite (dav_any c s u Hs Hc). cbn [with_day full pyear pmonth pday phour pminute psecond dflt]. do 2 f_equal. unfold midnight in *. lia. }
  assert (date_as_val c s u (with_day (with_month (full x) (dflt (pmonth (full x)) 1 + 1)) 1) = Some (value c s u (mon c (12 * year x + month x - 1 + 1)))) as E2.
  { rewrite (dav_any c s u Hs Hc). cbn [with_day with_month full pyear pmonth pday phour pminute psecond dflt]. do 2 f_equal. replace (12 * year x + (month x + 1) - 1) with (12 * year x + month x - 1 + 1) by lia. lia. }
  rewrite E1, E2. unfold date_diff, date_as_val.
  assert (A c (get_dates (with_day (full x) (dflt (pday (full x)) 1 + 1))) = midnight (k + 1)) as Estart.
  { unfold get_dates. cbn [with_day full pyear pmonth pday phour pminute psecond dflt]. rewrite A_fields, <- mon_number by exact Hm. unfold midnight in *. lia. }
  unfold get_dates at 2. cbn [with_day with_month full pyear pmonth pday phour pminute psecond dflt].
  rewrite (any_month c _ _ _ _ _ _ _ Hc).
  2:{ unfold get_dates. cbn [with_day with_month full pyear pmonth pday phour pminute psecond dflt]. destruct c; cbn; auto; contradiction. }
  cbn [with_day full pyear pmonth pday phour pminute psecond dflt] in Estart. rewrite Estart. cbn [bind]. pose proof (in_month c x Hc Hx) as [_ Hlt].
  replace (12 * year x + (month x + 1) - 1) with (12 * year x + month x - 1 + 1) by lia. destruct (month_midnight (12 * year x + month x - 1 + 1)) as (D & HD). rewrite HD in *.
  replace (midnight D + (1 - 1) * 86400 + hour x * 3600 + minute x * 60 + second x - midnight (k + 1)) with (86400 * (D - (k + 1))) by (unfold midnight in *; lia). rewrite days_less.
  destruct (Z.ltb_spec (D - (k + 1)) 1) as [H|H]; [|reflexivity]. do 3 f_equal. unfold midnight in *. lia.
Qed.
End Days.

(** *** counted days *)
Section Yearless.
Context (s : pdate) (u : unit) (Hs : good_start Yearless (get_dates s)) (mult : Z) (Hm : 0 < mult).
Definition day_grid (k : Z) : Z := midnight (mult * k).
Lemma day_increasing : forall k, day_grid k < day_grid (k + 1).
Proof. intros k. unfold day_grid, midnight. nia. Qed.
Lemma dav_day d : date_as_val Yearless s u (fields None None (Some d) None None None) = Some (value Yearless s u (midnight d)).
Proof. rewrite (dav_inst Yearless s u Hs); [|reflexivity]. do 2 f_equal. unfold get_dates, midnight. cbn [fields pyear pmonth pday phour pminute psecond dflt A]. unfold A_yl, tod. cbn [day hour minute second fields pyear pmonth pday phour pminute psecond dflt]. lia. Qed.
Lemma in_day x : valid_date Yearless x -> midnight (day x) <= A Yearless x < midnight (day x + 1).
Proof. intros [Ht _]. unfold valid_time in Ht. cbn [A]. unfold A_yl, tod, midnight. lia. Qed.
Lemma day_prior_spec v : exists k, day_prior Yearless s u mult v = Some (fields None None (Some (mult * k)) None None None) /\
  (inject_Z (day_grid k) < instant Yearless s u v)%Q /\ (instant Yearless s u v <= inject_Z (day_grid (k + 1)))%Q.
Proof.
  unfold day_prior. destruct (vad_inst Yearless s u Hs v) as (x & -> & Hx & Hn). cbn [bind full pday dflt]. rewrite dav_day. cbn [bind].
  pose proof (in_day x Hx) as Hin. destruct (qgtb v (value Yearless s u (midnight (day x)))) eqn:Eq.
  - apply qgtb_value in Eq. destruct (fine_next midnight midnight_increasing (day x) (A Yearless x) _ Hin Hn Eq) as [L U].
    exists ((day x + 1 - 1) / mult). split; [rewrite (Z.mul_comm mult); reflexivity|]. unfold day_grid. apply (coarse midnight midnight_increasing (day x + 1) mult _ Hm); [|exact U]. replace (day x + 1 - 1) with (day x) by lia. exact L.
  - destruct (fine_same midnight midnight_increasing (day x) (A Yearless x) (instant Yearless s u v) Hin Hn) as (E & L & U); [rewrite <- qgtb_value, Eq; discriminate|].
    exists ((day x - 1) / mult). split; [rewrite (Z.mul_comm mult); reflexivity|]. unfold day_grid. exact (coarse midnight midnight_increasing (day x) mult _ Hm L U).
Qed.
Lemma day_priors : priors Yearless s u day_grid (day_prior Yearless s u mult).
Proof. intros v. destruct (day_prior_spec v) as (k & E & H). exists k, (fields None None (Some (mult * k)) None None None). split; [exact E|]. split; [apply dav_day|exact H]. Qed.
Lemma day_nexts : nexts Yearless s u day_grid (day_next Yearless s u mult).
Proof.
  intros k. unfold day_next. destruct (vad_value Yearless s u Hs (day_grid k)) as (x & -> & Hx & Ea). cbn [bind]. pose proof (in_day x Hx) as Hin. assert (day x = mult * k) as Ed by (unfold day_grid, midnight in *; lia).
  assert (tod x = 0) as Et by (cbn [A] in Ea; unfold A_yl, day_grid, midnight in *; lia). destruct Hx as [_ [Hy Hmo]].
  rewrite (dav_inst Yearless s u Hs); [|exact Hmo]. do 2 f_equal. unfold get_dates. cbn [with_day full pyear pmonth pday phour pminute psecond dflt A]. unfold A_yl, tod, day_grid, midnight in *. cbn [day hour minute second]. lia.
Qed.
End Yearless.
