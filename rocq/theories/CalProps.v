(** Calendar properties C01-C10.  Nothing but statements, each closed by a lemma. *)
From Coq Require Import ZArith List Bool QArith_base Qabs.
From Verif Require Import CalModel CalSpec CalProofs CalPyProofs SeasonModel SeasonProofs.
Open Scope Z_scope.

(** C01: every relative time converts to a real date of the calendar, and back to the same value. *)
Theorem C01_value_to_date_to_value : forall c i v, good_start c i ->
  exists d, c_val_as_date c i v = Some d /\ valid_date c d /\ c_date_as_val c i d = Some v.
Proof. exact val_date_val. Qed.
Print Assumptions C01_value_to_date_to_value.

Theorem C01_with_units : forall c s u q, good_start c (get_dates s) ->
  exists p r, val_as_date c s u true q = Some (full p) /\ valid_date c p /\
    date_as_val c s u (full p) = Some r /\
    (Qabs ((r - q) * inject_Z (seconds_in u)) <= 1 # 2)%Q /\
    (forall n, (q * inject_Z (seconds_in u) == inject_Z n)%Q -> (r == q)%Q).
Proof. exact py_val_date_val_units. Qed.
Print Assumptions C01_with_units.

Theorem C01_partial_fields : forall c s u q p, val_as_date c s u false q = Some p ->
  exists d, val_as_date c s u true q = Some (full d) /\
    pyear p = keep (pyear s) (year d) /\ pmonth p = keep (pmonth s) (month d) /\
    pday p = keep (pday s) (day d) /\ phour p = keep (phour s) (hour d) /\
    pminute p = keep (pminute s) (minute d) /\ psecond p = keep (psecond s) (second d).
Proof. exact py_fields. Qed.
Print Assumptions C01_partial_fields.

Example C01_example :
  good_start Std (mkdate 2000 3 1 0 0 0) /\
  c_val_as_date Std (mkdate 2000 3 1 0 0 0) (-1) = Some (mkdate 2000 2 29 23 59 59) /\
  c_val_as_date Std (mkdate 1 1 1 0 0 0) (-86400 * 366 * 3) = Some (mkdate (-3) 12 30 0 0 0) /\
  c_val_as_date C365 (mkdate 2000 3 1 12 0 0) (-86400) = Some (mkdate 2000 2 28 12 0 0) /\
  c_val_as_date C360 (mkdate 2000 3 1 12 0 0) (-86400 * 61) = Some (mkdate 1999 12 30 12 0 0) /\
  c_val_as_date Yearless (mkdate 0 1 1 0 0 0) (-1) = Some (mkdate 0 1 0 23 59 59).
Proof. repeat split; vm_compute; congruence. Qed.

(** C02: every real date converts to a value and back to itself. *)
Theorem C02_date_to_value_to_date : forall c i d, good_start c i -> valid_date c d ->
  exists v, c_date_as_val c i d = Some v /\ c_val_as_date c i v = Some d.
Proof. exact date_val_date. Qed.
Print Assumptions C02_date_to_value_to_date.

Theorem C02_with_units : forall c s u d, good_start c (get_dates s) -> valid_date c d ->
  exists q, date_as_val c s u (full d) = Some q /\ val_as_date c s u true q = Some (full d).
Proof. exact py_date_val_date. Qed.
Print Assumptions C02_with_units.

Example C02_example : valid_date Std (mkdate 2000 2 29 23 59 59) /\
  valid_date C365 (mkdate 1900 2 28 0 0 0) /\ valid_date C360 (mkdate 1900 2 30 0 0 0).
Proof.
  split; [|split].
  - apply vstd_valid. vm_compute. intuition congruence.
  - apply v365_valid. vm_compute. intuition congruence.
  - apply v360_valid. vm_compute. intuition congruence.
Qed.

(** C03: the calendar is the textbook one: one tick of the clock adds one second, the start
    date has value 0, every date has a next second, and leap years follow the Gregorian rule. *)
Theorem C03_clock_tick : forall c i a b, good_start c i -> valid_date c a -> tick c a b ->
  valid_date c b /\
  exists va, c_date_as_val c i a = Some va /\ c_date_as_val c i b = Some (va + 1).
Proof. exact tick_val. Qed.
Print Assumptions C03_clock_tick.

Theorem C03_tick_with_units : forall c s u a b, good_start c (get_dates s) -> valid_date c a -> tick c a b ->
  exists va vb, date_as_val c s u (full a) = Some va /\ date_as_val c s u (full b) = Some vb /\
    ((vb - va) * inject_Z (seconds_in u) == 1)%Q.
Proof. exact py_tick. Qed.
Print Assumptions C03_tick_with_units.

Theorem C03_tick_total : forall c a, valid_date c a -> exists b, tick c a b.
Proof. exact tick_exists. Qed.
Print Assumptions C03_tick_total.

Theorem C03_start_is_zero : forall c i, good_start c i -> c_date_as_val c i i = Some 0.
Proof. exact start_is_zero. Qed.
Print Assumptions C03_start_is_zero.

Theorem C03_leap_rule : forall y, isleap y = true <-> leap_year y.
Proof. exact isleap_spec. Qed.
Print Assumptions C03_leap_rule.

Example C03_example : tick Std (mkdate 1900 2 28 23 59 59) (mkdate 1900 3 1 0 0 0) /\
  c_date_as_val Std (mkdate 2000 1 1 0 0 0) (mkdate 1900 3 1 0 0 0) = Some (-3150576000) .
Proof.
  split; [|vm_compute; reflexivity].
  apply (t_month Std 1900 2 28); [congruence| |reflexivity].
  apply ml_feb_std. intros [_ [H|H]].
  - apply H. exists 19. reflexivity.
  - destruct H as [k H]. assert (1900 mod 400 = 0) as E by (rewrite H; apply Z.mod_mul; congruence).
    vm_compute in E. discriminate.
Qed.

(** C04: chronological order of dates is the order of their values. *)
Theorem C04_order : forall c i a b, good_start c i -> valid_date c a -> valid_date c b ->
  exists va vb, c_date_as_val c i a = Some va /\ c_date_as_val c i b = Some vb /\
    (earlier a b <-> va < vb).
Proof. exact order_vals. Qed.
Print Assumptions C04_order.

(** C05: time differences add up, are antisymmetric and do not depend on the start date. *)
Theorem C05_differences_add : forall c a b x, good_start c a -> good_start c b -> good_any c x ->
  exists ab bx ax, c_date_as_val c a b = Some ab /\ c_date_as_val c b x = Some bx /\
    c_date_as_val c a x = Some ax /\ ab + bx = ax.
Proof. exact diff_additive. Qed.
Print Assumptions C05_differences_add.

Theorem C05_antisymmetric : forall c a b, good_start c a -> good_start c b ->
  exists ab ba, c_date_as_val c a b = Some ab /\ c_date_as_val c b a = Some ba /\ ab = - ba.
Proof. exact diff_antisym. Qed.
Print Assumptions C05_antisymmetric.

Theorem C05_rebase : forall c i j v, good_start c i -> good_start c j ->
  exists d w, c_val_as_date c i v = Some d /\ c_date_as_val c j d = Some w /\ c_val_as_date c j w = Some d.
Proof. exact rebase. Qed.
Print Assumptions C05_rebase.

(** C06: month numbers outside 1..12 wrap into neighbouring years; all other fields carry. *)
Theorem C06_month_wrap : forall c i y m d h mi s k, c <> Yearless ->
  c_date_as_val c i (mkdate y (m + 12 * k) d h mi s) = c_date_as_val c i (mkdate (y + k) m d h mi s).
Proof. exact month_wrap. Qed.
Print Assumptions C06_month_wrap.

Theorem C06_fields_carry : forall c i y m d h mi s, good_start c i -> good_any c (mkdate y m d h mi s) ->
  exists v0, c_date_as_val c i (mkdate y m 1 0 0 0) = Some v0 /\
    c_date_as_val c i (mkdate y m d h mi s) = Some (v0 + (d - 1) * 86400 + h * 3600 + mi * 60 + s).
Proof. exact carry_fields. Qed.
Print Assumptions C06_fields_carry.

Example C06_example : c_date_as_val Std (mkdate 2000 1 1 0 0 0) (mkdate 2000 (-3) 1 0 0 0) = Some (-10540800).
Proof. vm_compute. reflexivity. Qed.

(** C07: wrapdate returns a real date for the same instant, fixes real dates, and is idempotent. *)
Theorem C07_wrapdate : forall c s u p, good_start c (get_dates s) -> good_any c (get_dates p) ->
  exists d v, wrapdate c s u true p = Some (full d) /\ valid_date c d /\
    date_as_val c s u p = Some v /\ date_as_val c s u (full d) = Some v /\
    wrapdate c s u true (full d) = Some (full d).
Proof. exact py_wrapdate. Qed.
Print Assumptions C07_wrapdate.

Theorem C07_wrapdate_fixes_valid : forall c s u d, good_start c (get_dates s) -> valid_date c d ->
  wrapdate c s u true (full d) = Some (full d).
Proof. exact py_wrapdate_valid. Qed.
Print Assumptions C07_wrapdate_fixes_valid.

Example C07_example : wrapdate Std (full (mkdate 1 1 1 0 0 0)) Days true
   (full (mkdate 2000 14 31 25 (-1) 3600)) = Some (full (mkdate 2001 3 4 1 59 0)).
Proof. vm_compute. reflexivity. Qed.

(** C08: days_in_month is the length of the month. *)
Theorem C08_days_in_month : forall c y m n, month_length c y m n ->
  exists q, days_in_month c y m = Some q /\ (q == inject_Z n)%Q.
Proof. exact py_days_in_month. Qed.
Print Assumptions C08_days_in_month.

(** C09: the day of the year used by formatvalue ($j) and by seasons.  It is right for model
    calendars and for leap years... *)
Theorem C09_day_of_year_partial : forall c d k, c <> Yearless -> (c = Std -> leap_year (year d)) ->
  1 <= month d <= 12 -> day_of_year c (year d) (month d) (day d) k ->
  exists q, getdoy c (full d) = Some q /\
   (q == k * 86400 + hour d * 3600 + minute d * 60 + second d # 86400)%Q.
Proof. exact getdoy_correct. Qed.
Print Assumptions C09_day_of_year_partial.

(** ... but one too large on every date from 1 March on of every non-leap year of the standard calendar. *)
Theorem C09_day_of_year_off_by_one : forall d k, ~ leap_year (year d) -> 3 <= month d <= 12 ->
  day_of_year Std (year d) (month d) (day d) k ->
  exists q, getdoy Std (full d) = Some q /\
   (q == (k + 1) * 86400 + hour d * 3600 + minute d * 60 + second d # 86400)%Q.
Proof. exact getdoy_wrong. Qed.
Print Assumptions C09_day_of_year_off_by_one.

Theorem C09_day_of_year_refuted : exists d k, valid_date Std d /\
  day_of_year Std (year d) (month d) (day d) k /\
  exists q, getdoy Std (full d) = Some q /\ ~ (q == inject_Z k)%Q.
Proof.
  assert (NL : ~ leap_year 2001).
  { intros [H _]. destruct H as [k H]. assert (2001 mod 4 = 0) as E by (rewrite H; apply Z.mod_mul; congruence).
    vm_compute in E. discriminate. }
  exists (mkdate 2001 3 1 0 0 0), 60. split; [|split].
  - apply vstd_valid. vm_compute. intuition congruence.
  - cbn [year month day]. apply (doy_next Std 2001 2 1 28); [apply ml_feb_std, NL|].
    apply (doy_next Std 2001 1 29 31); [apply ml_31; auto|]. apply doy_jan.
  - eexists; split; [reflexivity|]. vm_compute. discriminate.
Qed.
Print Assumptions C09_day_of_year_refuted.

(** C10: the seasonal axes assign each date to its meteorological season (December counts
    for the next year).  True on the 365-day calendar... *)
Theorem C10_season_365 : forall d, valid_date C365 d -> exists y s,
  get_seasons C365 (full d) = Some (y, s) /\ season_of (year d) (month d) y s.
Proof. exact season_365. Qed.
Print Assumptions C10_season_365.

(** ... and on the standard calendar exactly outside 29 Feb, 31 May, 31 Aug and 30 Nov. *)
Theorem C10_season_standard_partial : forall d, valid_date Std d -> exists y s,
  get_seasons Std (full d) = Some (y, s) /\
  (season_of (year d) (month d) y s <-> ~ boundary_day (month d) (day d)).
Proof. exact season_std. Qed.
Print Assumptions C10_season_standard_partial.

Theorem C10_season_standard_refuted : exists d, valid_date Std d /\
  get_seasons Std (full d) = Some (2001, 3) /\ season_of (year d) (month d) 2001 2.
Proof.
  exists (mkdate 2001 5 31 12 0 0). split; [|split].
  - apply vstd_valid. vm_compute. intuition congruence.
  - vm_compute. reflexivity.
  - apply so_mam. auto.
Qed.
Print Assumptions C10_season_standard_refuted.

Theorem C10_season_roundtrip : forall base st u y s, base = Std \/ base = C365 ->
  good_start base (get_dates st) -> 1 <= s <= 4 ->
  exists q, season_date_as_val base st u y s = Some q /\ season_val_as_date base st u q = Some (y, s).
Proof. exact season_roundtrip. Qed.
Print Assumptions C10_season_roundtrip.

Theorem C10_season_wrap : forall base st u y s k,
  season_date_as_val base st u y (s + 4 * k) = season_date_as_val base st u (y + k) s.
Proof. exact season_wrap. Qed.
Print Assumptions C10_season_wrap.
