(** C57: ticks on time axes. *)
From Coq Require Import ZArith List Bool Lia ZifyBool QArith_base Qround Qabs QArith Lqa Znumtheory.
From Verif Require Import CalModel CalSpec CalProofs CalPyProofs StencilModel TickModel TickProofs TickClock TickMonth.
Import ListNotations.
Open Scope Z_scope.

(** [l] are, in order, the values in the interval [vmin, vmax) of exactly those dates that have the property [P] *)
Definition marks (c : cal) (s : pdate) (u : unit) (P : date -> Prop) (vmin vmax : Q) (l : list Q) : Prop :=
  (forall i j a b, (i < j)%nat -> nth_error l i = Some a -> nth_error l j = Some b -> (a < b)%Q) /\
  forall t, In t l <-> exists x, valid_date c x /\ P x /\ date_as_val c s u (full x) = Some t /\ (vmin <= t < vmax)%Q.
Definition at_midnight (x : date) : Prop := hour x = 0 /\ minute x = 0 /\ second x = 0.

Lemma dav_full c s u x : good_start c (get_dates s) -> valid_date c x -> date_as_val c s u (full x) = Some (value c s u (A c x)).
Proof. intros Hs Hx. rewrite (dav_inst c s u Hs); rewrite get_full; [reflexivity|apply valid_good; exact Hx]. Qed.

Lemma grid_marks c s u (P : date -> Prop) g prior next vmin vmax : good_start c (get_dates s) -> (forall k, g k < g (k + 1)) -> priors c s u g prior -> nexts c s u g next ->
  (forall x, valid_date c x -> (P x <-> exists k, A c x = g k)) ->
  exists l k1 k2 d1 d2, ticks c s u prior next vmin vmax = Some l /\ marks c s u P vmin vmax l /\ prior vmin = Some d1 /\ prior vmax = Some d2 /\
    date_as_val c s u d1 = Some (value c s u (g k1)) /\ date_as_val c s u d2 = Some (value c s u (g k2)) /\ ((vmin <= vmax)%Q -> Z.of_nat (length l) = k2 - k1).
Proof.
  intros Hs Hg Hp Hn HP. destruct (ticks_spec c s u g Hg prior next Hp Hn vmin vmax) as (k1 & k2 & d1 & d2 & l & P1 & P2 & D1 & D2 & Et & El & Hk & Hl).
  exists l, k1, k2, d1, d2. split; [exact Et|]. split; [|repeat split; auto].
  - split.
    + intros i j a b Hij Ha Hb. subst l. assert (j < Z.to_nat (k2 - k1))%nat as Hj by (rewrite <- (from_length c s u g k1 (Z.to_nat (k2 - k1))); apply nth_error_Some; congruence).
      assert (i < Z.to_nat (k2 - k1))%nat as Hi by (clear - Hij Hj; lia). rewrite (from_nth c s u g Hg k1 _ i Hi) in Ha. rewrite (from_nth c s u g Hg k1 _ j Hj) in Hb. injection Ha as <-. injection Hb as <-. apply (proj2 (value_lt c s u _ _)), (proj2 (grid_lt g Hg _ _)). clear - Hij; lia.
    + intros t. rewrite Hl. split.
      * intros (k & -> & Hv). destruct (vad_value c s u Hs (g k)) as (x & _ & Hx & Ea). exists x. split; [exact Hx|]. split; [apply HP; [exact Hx|exists k; exact Ea]|]. split; [rewrite (dav_full c s u x Hs Hx), Ea; reflexivity|exact Hv].
      * intros (x & Hx & Px & Ev & Hv). apply HP in Px as (k & Ea); [|exact Hx]. rewrite (dav_full c s u x Hs Hx), Ea in Ev. injection Ev as <-. exists k. auto.
  - intros Hv. subst l. rewrite from_length. specialize (Hk Hv). lia.
Qed.

Lemma mult_nz m : 0 < m -> ~ (inject_Z m == 0)%Q.
Proof. intros H E. unfold Qeq in E. cbn in E. lia. Qed.

(** Years: 1 January, 00:00, of the years that are multiples of [mult]. *)
Theorem C57_years : forall c s u mult vmin vmax, c <> Yearless -> good_start c (get_dates s) -> 0 < mult ->
  exists l, ticks c s u (year_prior c s u mult) (year_next c s u mult) vmin vmax = Some l /\
    marks c s u (fun x => (mult | year x) /\ month x = 1 /\ day x = 1 /\ at_midnight x) vmin vmax l /\
    ((vmin <= vmax)%Q -> exists n, year_nticks c s u mult vmin vmax = Some n /\ (n == inject_Z (Z.of_nat (length l)))%Q).
Proof.
  intros c s u mult vmin vmax Hc Hs Hm.
  destruct (grid_marks c s u (fun x => (mult | year x) /\ month x = 1 /\ day x = 1 /\ at_midnight x) (year_grid c mult) (year_prior c s u mult) (year_next c s u mult) vmin vmax Hs (year_increasing c Hc mult Hm) (year_priors c s u Hs Hc mult Hm) (year_nexts c s u Hs Hc mult))
    as (l & k1 & k2 & d1 & d2 & Et & Hmk & P1 & P2 & D1 & D2 & Hlen).
  { intros x Hx. unfold year_grid, at_midnight. split.
    - intros ((k & Hk) & H1 & H2 & H3 & H4 & H5). exists k. replace (12 * (mult * k)) with (12 * year x + month x - 1) by lia. rewrite mon_number by lia. destruct x; cbn in *; subst; reflexivity.
    - intros (k & Ek). apply (at_first c Hc) in Ek; [|exact Hx]. subst x. unfold first_of. cbn [year month day hour minute second]. replace (12 * (mult * k)) with (mult * k * 12) by lia. rewrite Z.div_mul, Z.mod_mul by lia.
      split; [exists k; lia|lia]. }
  exists l. split; [exact Et|]. split; [exact Hmk|]. intros Hv. unfold year_nticks. rewrite P1, P2. cbn [bind]. eexists. split; [reflexivity|]. rewrite (Hlen Hv).
  destruct (year_prior_spec c s u Hs Hc mult Hm vmin) as (j1 & E1 & _). destruct (year_prior_spec c s u Hs Hc mult Hm vmax) as (j2 & E2 & _).
  rewrite E1 in P1. rewrite E2 in P2. injection P1 as <-. injection P2 as <-. rewrite (dav_january c s u Hs Hc) in D1. rewrite (dav_january c s u Hs Hc) in D2.
  assert (forall a b : Q, Some a = Some b -> a = b) as sinj by congruence. apply sinj in D1. apply sinj in D2. assert (year_grid c mult j1 = year_grid c mult k1 /\ year_grid c mult j2 = year_grid c mult k2) as [F1 F2] by (unfold year_grid in *; split; apply (value_inj c s u); congruence).
  assert (forall a b, year_grid c mult a = year_grid c mult b -> a = b) as inj.
  { intros a b E. pose proof (grid_lt _ (year_increasing c Hc mult Hm) a b). pose proof (grid_lt _ (year_increasing c Hc mult Hm) b a). lia. }
  apply inj in F1. apply inj in F2. subst. cbn [fields pyear dflt]. replace (mult * k2 - mult * k1) with ((k2 - k1) * mult) by lia. rewrite inject_Z_mult. field. apply mult_nz. exact Hm.
Qed.
Print Assumptions C57_years.

(** Months: the first of the months whose number, counted from 0 in January, is a multiple of [mult]. *)
Theorem C57_months : forall c s u mult vmin vmax, c <> Yearless -> good_start c (get_dates s) -> 0 < mult -> (mult | 12) ->
  exists l, ticks c s u (month_prior c s u mult) (month_next c s u mult) vmin vmax = Some l /\
    marks c s u (fun x => (mult | month x - 1) /\ day x = 1 /\ at_midnight x) vmin vmax l /\
    ((vmin <= vmax)%Q -> exists n, month_nticks c s u mult vmin vmax = Some n /\ (n == inject_Z (Z.of_nat (length l)))%Q).
Proof.
  intros c s u mult vmin vmax Hc Hs Hm Hd.
  destruct (grid_marks c s u (fun x => (mult | month x - 1) /\ day x = 1 /\ at_midnight x) (month_grid c mult) (month_prior c s u mult) (month_next c s u mult) vmin vmax Hs (month_increasing c Hc mult Hm) (month_priors c s u Hs Hc mult Hm Hd) (month_nexts c s u Hs Hc mult))
    as (l & k1 & k2 & d1 & d2 & Et & Hmk & P1 & P2 & D1 & D2 & Hlen).
  { intros x Hx. unfold month_grid, at_midnight. destruct Hd as (w & Hw). split.
    - intros ((k & Hk) & H2 & H3 & H4 & H5). exists (w * year x + k). replace (mult * (w * year x + k)) with (12 * year x + month x - 1) by (rewrite Hw; lia). rewrite mon_number by exact (valid_months c x Hc Hx). destruct x; cbn in *; subst; reflexivity.
    - intros (k & Ek). apply (at_first c Hc) in Ek; [|exact Hx]. subst x. unfold first_of. cbn [year month day hour minute second]. split; [|lia].
      exists (k - w * (mult * k / 12)). pose proof (Z.div_mod (mult * k) 12 ltac:(lia)) as E. generalize dependent (mult * k / 12). intros t E. assert (12 * t = w * mult * t) by (rewrite <- Hw; reflexivity). lia. }
  exists l. split; [exact Et|]. split; [exact Hmk|]. intros Hv. unfold month_nticks. rewrite P1, P2. cbn [bind]. eexists. split; [reflexivity|]. rewrite (Hlen Hv).
  destruct (month_prior_spec c s u Hs Hc mult Hm Hd vmin) as (j1 & E1 & _). destruct (month_prior_spec c s u Hs Hc mult Hm Hd vmax) as (j2 & E2 & _).
  rewrite E1 in P1. rewrite E2 in P2. injection P1 as <-. injection P2 as <-. rewrite (dav_full_first c s u Hs Hc) in D1. rewrite (dav_full_first c s u Hs Hc) in D2.
  assert (forall a b : Q, Some a = Some b -> a = b) as sinj by congruence. apply sinj in D1. apply sinj in D2. assert (month_grid c mult j1 = month_grid c mult k1 /\ month_grid c mult j2 = month_grid c mult k2) as [F1 F2] by (unfold month_grid in *; split; apply (value_inj c s u); congruence).
  assert (forall a b, month_grid c mult a = month_grid c mult b -> a = b) as inj.
  { intros a b E. pose proof (grid_lt _ (month_increasing c Hc mult Hm) a b). pose proof (grid_lt _ (month_increasing c Hc mult Hm) b a). lia. }
  apply inj in F1. apply inj in F2. subst. unfold first_of. cbn [full year month pyear pmonth dflt]. pose proof (Z.div_mod (mult * k1) 12 ltac:(lia)). pose proof (Z.div_mod (mult * k2) 12 ltac:(lia)).
  replace (12 * (mult * k2 / 12) + ((mult * k2) mod 12 + 1) - (12 * (mult * k1 / 12) + ((mult * k1) mod 12 + 1))) with ((k2 - k1) * mult) by lia. rewrite inject_Z_mult. field. apply mult_nz. exact Hm.
Qed.
Print Assumptions C57_months.

(** Hours, minutes and seconds: the full hours (minutes, seconds) that are multiples of [mult], in every calendar. *)
Definition on_clock (k : clock) (mult : Z) (x : date) : Prop :=
  match k with
  | CHour => (mult | hour x) /\ minute x = 0 /\ second x = 0
  | CMinute => (mult | minute x) /\ second x = 0
  | CSecond => (mult | second x)
  end.
Definition per (k : clock) : Z := match k with CHour => 24 | CMinute => 60 | CSecond => 60 end.
Lemma on_clock_grid c k mult x : 0 < mult -> (mult | M k) -> valid_date c x -> (on_clock k mult x <-> exists j, A c x = clock_grid k mult j).
Proof.
  intros Hm Hd Hx. destruct (clock_facts c k x Hx) as (q & r & Ea & Hr & Hc & (i & Hi) & Hl & _). assert (on_clock k mult x <-> (mult | count_of k (full x)) /\ low_fields k x) as ->.
  { destruct k; cbn [on_clock count_of low_fields full phour pminute psecond dflt]; tauto. }
  rewrite Hl. unfold clock_grid. destruct Hd as (w & Hw). split.
  - intros ((f & Hf) & ->). exists (i * w + f). rewrite Ea. replace q with (mult * (i * w + f)) by (rewrite Hw in Hi; lia). lia.
  - intros (j & Ej). assert (0 < W k) by (destruct k; cbn; lia). assert (r = 0 /\ q = mult * j) as [-> ->] by (rewrite Ea in Ej; generalize dependent (mult * j); intros t Et; destruct k; cbn [W] in *; lia). split; [|reflexivity]. exists (j - i * w). rewrite Hw in Hi. lia.
Qed.
Theorem C57_clock : forall c s u k mult vmin vmax, good_start c (get_dates s) -> 0 < mult -> (mult | per k) ->
  exists l, ticks c s u (clock_prior c s u k mult) (clock_next c s u k mult) vmin vmax = Some l /\ marks c s u (on_clock k mult) vmin vmax l /\
    ((vmin <= vmax)%Q -> exists n, clock_nticks c s u k mult vmin vmax = Some n /\ (n == inject_Z (Z.of_nat (length l)))%Q).
Proof.
  intros c s u k mult vmin vmax Hs Hm Hd.
  destruct (grid_marks c s u (on_clock k mult) (clock_grid k mult) (clock_prior c s u k mult) (clock_next c s u k mult) vmin vmax Hs (clock_increasing k mult Hm Hd) (clock_priors c s u Hs k mult Hm Hd) (clock_nexts c s u Hs k mult Hd))
    as (l & k1 & k2 & d1 & d2 & Et & Hmk & P1 & P2 & D1 & D2 & Hlen).
  { intros x Hx. apply on_clock_grid; auto. }
  exists l. split; [exact Et|]. split; [exact Hmk|]. intros Hv. unfold clock_nticks. rewrite P1, P2. cbn [bind].
  assert (forall v d j, clock_prior c s u k mult v = Some d -> date_as_val c s u d = Some (value c s u (clock_grid k mult j)) -> exists x, d = full x /\ valid_date c x /\ A c x = clock_grid k mult j) as Hfull.
  { intros v d j Ep Ed. assert (exists x, d = full x /\ valid_date c x) as (x & -> & Hx).
    { unfold clock_prior in Ep. destruct (vad_inst c s u Hs v) as (x & Ex & _). rewrite Ex in Ep. cbn [bind] in Ep.
      assert (forall p y, wrapdate c s u true p = Some y -> exists x, y = full x /\ valid_date c x) as Hw.
      { intros p y Ey. unfold wrapdate in Ey. destruct (date_as_val c s u p) as [z|]; [|discriminate]. destruct (vad_inst c s u Hs z) as (x1 & Ex1 & Hx1 & _). rewrite Ex1 in Ey. injection Ey as <-. eauto. }
      repeat match type of Ep with context [bind ?e _] => destruct e as [?|] eqn:?; cbn [bind] in Ep; [|discriminate] end.
      injection Ep as Ep. match type of Ep with (if ?b then _ else _) = _ => destruct b end; subst d; eapply Hw; eassumption. }
    exists x. split; [reflexivity|]. split; [exact Hx|]. rewrite (dav_full c s u x Hs Hx) in Ed. assert (forall a b : Q, Some a = Some b -> a = b) as sinj by congruence. apply sinj, (value_inj c s u) in Ed. exact Ed. }
  destruct (Hfull vmin d1 k1 P1 D1) as (x1 & -> & V1 & A1). destruct (Hfull vmax d2 k2 P2 D2) as (x2 & -> & V2 & A2).
  rewrite (diff_inst c _ (full x1) (full x2) (good_start_full c x1 V1) ltac:(rewrite get_full; apply valid_good; exact V2)), !get_full, A1, A2. cbn [bind]. eexists. split; [reflexivity|]. rewrite (Hlen Hv).
  pose proof (clock_factor k) as EW. assert ((clock_grid k mult k2 - clock_grid k mult k1) # unitfactor (clock_unit k) == inject_Z (mult * (k2 - k1)))%Q as ->.
  { unfold Qeq, clock_grid. cbn [Qnum Qden inject_Z]. rewrite EW. lia. }
  rewrite inject_Z_mult. field. apply mult_nz. exact Hm.
Qed.
Print Assumptions C57_clock.

(** Days of the month, when every day is marked. *)
Theorem C57_days_of_month_partial : forall c s u vmin vmax, c <> Yearless -> good_start c (get_dates s) ->
  exists l, ticks c s u (mday_prior c s u 1) (mday_next c s u 1) vmin vmax = Some l /\ marks c s u at_midnight vmin vmax l /\
    mday_nticks c s u 1 vmin vmax = Some (inject_Z (Z.of_nat (length l))).
Proof.
  intros c s u vmin vmax Hc Hs.
  destruct (grid_marks c s u at_midnight midnight (mday_prior c s u 1) (mday_next c s u 1) vmin vmax Hs midnight_increasing (mday_priors c s u Hs Hc) (mday_nexts c s u Hs Hc))
    as (l & k1 & k2 & d1 & d2 & Et & Hmk & P1 & P2 & D1 & D2 & Hlen).
  { intros x Hx. destruct (day_facts c Hc x Hx) as (q & r & Ea & Hr & _ & Hz). unfold at_midnight. rewrite <- Hz. split; [intros ->; exists q; lia|]. intros (k & Ek). unfold midnight in *. lia. }
  exists l. split; [exact Et|]. split; [exact Hmk|]. unfold mday_nticks. rewrite Et. reflexivity.
Qed.
Print Assumptions C57_days_of_month_partial.

(** The yearless calendar: midnight of the days whose number is a multiple of [mult]; but nticks reports one more. *)
Theorem C57_days : forall s u mult vmin vmax, good_start Yearless (get_dates s) -> 0 < mult ->
  exists l, ticks Yearless s u (day_prior Yearless s u mult) (day_next Yearless s u mult) vmin vmax = Some l /\
    marks Yearless s u (fun x => (mult | day x) /\ at_midnight x) vmin vmax l /\
    ((vmin <= vmax)%Q -> exists n, day_nticks Yearless s u mult vmin vmax = Some n /\ (n == inject_Z (Z.of_nat (length l)) + 1)%Q).
Proof.
  intros s u mult vmin vmax Hs Hm.
  destruct (grid_marks Yearless s u (fun x => (mult | day x) /\ at_midnight x) (day_grid mult) (day_prior Yearless s u mult) (day_next Yearless s u mult) vmin vmax Hs (day_increasing mult Hm) (day_priors s u Hs mult Hm) (day_nexts s u Hs mult))
    as (l & k1 & k2 & d1 & d2 & Et & Hmk & P1 & P2 & D1 & D2 & Hlen).
  { intros x Hx. pose proof (in_day x Hx) as Hin. destruct Hx as [Ht Hx]. unfold valid_time in Ht. unfold at_midnight, day_grid in *. cbn [A] in *. unfold A_yl, tod in *. split.
    - intros ((k & Hk) & H1 & H2 & H3). exists k. unfold midnight. rewrite H1, H2, H3, Hk. lia.
    - intros (k & Ek). unfold midnight in *. assert (day x = mult * k) as Ed by lia. split; [exists k; lia|lia]. }
  exists l. split; [exact Et|]. split; [exact Hmk|]. intros Hv. unfold day_nticks. rewrite P1, P2. cbn [bind]. eexists. split; [reflexivity|]. rewrite (Hlen Hv).
  destruct (day_prior_spec s u Hs mult Hm vmin) as (j1 & E1 & _). destruct (day_prior_spec s u Hs mult Hm vmax) as (j2 & E2 & _).
  rewrite E1 in P1. rewrite E2 in P2. injection P1 as <-. injection P2 as <-. rewrite (dav_day s u Hs) in D1. rewrite (dav_day s u Hs) in D2.
  assert (forall a b : Q, Some a = Some b -> a = b) as sinj by congruence. apply sinj in D1. apply sinj in D2. cbn [fields pday dflt]. assert (mult * j2 - mult * j1 = (k2 - k1) * mult) as -> by (apply (value_inj Yearless s u) in D1; apply (value_inj Yearless s u) in D2; unfold day_grid, midnight in *; lia). rewrite inject_Z_mult. field. apply mult_nz. exact Hm.
Qed.
Print Assumptions C57_days.


(** *** the choice of the multiple *)
Lemma qgtb_true a b : qgtb a b = true <-> (b < a)%Q.
Proof. unfold qgtb. rewrite negb_true_iff, <- not_true_iff_false, Qle_bool_iff. split; [apply Qnot_le_lt|apply Qlt_not_le]. Qed.
Lemma qgtb_false a b : qgtb a b = false <-> (a <= b)%Q.
Proof. unfold qgtb. rewrite negb_false_iff, Qle_bool_iff. reflexivity. Qed.
Lemma qltb_true a b : qltb a b = true <-> (a < b)%Q.
Proof. exact (qgtb_true b a). Qed.
Lemma qltb_false a b : qltb a b = false <-> (b <= a)%Q.
Proof. exact (qgtb_false b a). Qed.
Lemma qle_false a b : Qle_bool a b = false <-> (b < a)%Q.
Proof. rewrite <- not_true_iff_false, Qle_bool_iff. split; [apply Qnot_le_lt|apply Qlt_not_le]. Qed.

Section Best.
Context (n : Z -> Q) (len : Z) (target : Q).
Definition rising : Prop := forall i j, 0 <= i <= j -> j < len -> (n i <= n j)%Q.
(** no other multiple comes closer to the target *)
Definition closest (i : Z) : Prop := forall j, 0 <= j < len -> (Qabs (n i - target) <= Qabs (n j - target))%Q.
Definition chosen (r : option (Q * Z)) : Prop := exists i, r = Some (n i, i) /\ 0 <= i < len /\ (rising -> closest i).

Lemma abs_up a b : (target <= a)%Q -> (a <= b)%Q -> (Qabs (a - target) <= Qabs (b - target))%Q.
Proof. intros. rewrite !Qabs_pos; lra. Qed.
Lemma abs_down a b : (a <= target)%Q -> (b <= a)%Q -> (Qabs (a - target) <= Qabs (b - target))%Q.
Proof. intros. rewrite !Qabs_neg; lra. Qed.
Lemma abs_across a b : (target <= a)%Q -> (b <= target)%Q -> (a - target <= target - b)%Q -> (Qabs (a - target) <= Qabs (b - target))%Q.
Proof. intros. rewrite Qabs_pos, Qabs_neg; lra. Qed.
Lemma abs_cross a b : (a <= target)%Q -> (target <= b)%Q -> (target - a <= b - target)%Q -> (Qabs (a - target) <= Qabs (b - target))%Q.
Proof. intros. rewrite (Qabs_pos (b - target)), Qabs_neg; lra. Qed.

Lemma go_down : forall fuel i, 0 <= i < len -> i < Z.of_nat fuel -> (target < n i)%Q -> chosen (best_loop fuel n len target i (n i)).
Proof.
  induction fuel as [|k IH]; intros i Hi Hf Hn; [lia|]. cbn [best_loop]. rewrite (proj2 (qgtb_true _ _) Hn). cbn [andb].
  destruct (Z.gtb_spec i 0) as [H0|H0].
  - destruct (Qle_bool (n i - target) (target - n (i - 1))) eqn:E1.
    + apply Qle_bool_iff in E1. exists i. split; [reflexivity|]. split; [lia|]. intros Hr j Hj. destruct (Z_le_gt_dec i j).
      * apply abs_up; [lra|]. apply Hr; lia.
      * assert (n j <= n (i - 1))%Q by (apply Hr; lia). apply abs_across; lra.
    + apply qle_false in E1. destruct (Qle_bool (n (i - 1)) target) eqn:E2.
      * apply Qle_bool_iff in E2. exists (i - 1). split; [reflexivity|]. split; [lia|]. intros Hr j Hj. destruct (Z_le_gt_dec i j).
        -- assert (n i <= n j)%Q by (apply Hr; lia). apply abs_cross; lra.
        -- apply abs_down; [lra|]. apply Hr; lia.
      * apply qle_false in E2. apply IH; [lia|lia|exact E2].
  - assert (i = 0) as -> by lia. replace (qltb (n 0) target) with false by (symmetry; apply qltb_false; lra). cbn [andb]. exists 0. split; [reflexivity|]. split; [lia|].
    intros Hr j Hj. apply abs_up; [lra|]. apply Hr; lia.
Qed.
Lemma go_up : forall fuel i, 0 <= i < len -> len - i <= Z.of_nat fuel -> (n i <= target)%Q -> chosen (best_loop fuel n len target i (n i)).
Proof.
  induction fuel as [|k IH]; intros i Hi Hf Hn; [lia|]. cbn [best_loop]. rewrite (proj2 (qgtb_false _ _) Hn). cbn [andb].
  destruct (qltb (n i) target) eqn:E0; cbn [andb].
  - apply qltb_true in E0. destruct (Z.ltb_spec i (len - 1)) as [H0|H0].
    + destruct (qltb (target - n i) (n (i + 1) - target)) eqn:E1.
      * apply qltb_true in E1. exists i. split; [reflexivity|]. split; [lia|]. intros Hr j Hj. destruct (Z_le_gt_dec j i).
        -- apply abs_down; [lra|]. apply Hr; lia.
        -- assert (n (i + 1) <= n j)%Q by (apply Hr; lia). apply abs_cross; lra.
      * apply qltb_false in E1. destruct (qgtb (n (i + 1)) target) eqn:E2.
        -- apply qgtb_true in E2. exists (i + 1). split; [reflexivity|]. split; [lia|]. intros Hr j Hj. destruct (Z_le_gt_dec j i).
           ++ assert (n j <= n i)%Q by (apply Hr; lia). apply abs_across; lra.
           ++ apply abs_up; [lra|]. apply Hr; lia.
        -- apply qgtb_false in E2. apply IH; [lia|lia|exact E2].
    + exists i. split; [reflexivity|]. split; [lia|]. intros Hr j Hj. apply abs_down; [lra|]. apply Hr; lia.
  - apply qltb_false in E0. exists i. split; [reflexivity|]. split; [lia|]. intros Hr j Hj. assert (n i - target == 0)%Q as -> by lra. change (Qabs 0) with 0%Q. apply Qabs_nonneg.
Qed.
End Best.

(** Whatever the previous choice was and however the number of ticks depends on the multiple, the search ends with one of the multiples and its number of ticks;
    if the number of ticks does not fall along the list of multiples, no other choice comes closer to the target. *)
Theorem C57_best_mult : forall n len target i, 0 <= i < len ->
  exists i', best_mult n len target i = Some (n i', i') /\ 0 <= i' < len /\
    ((forall a b, 0 <= a <= b -> b < len -> (n a <= n b)%Q) -> forall j, 0 <= j < len -> (Qabs (n i' - target) <= Qabs (n j - target))%Q).
Proof.
  intros n len target i Hi. unfold best_mult. destruct (Qlt_le_dec target (n i)) as [H|H].
  - apply (go_down n len target (Z.to_nat len) i Hi); [lia|exact H].
  - apply (go_up n len target (Z.to_nat len) i Hi); [lia|exact H].
Qed.
Print Assumptions C57_best_mult.

(** *** where the generator of days of the month goes wrong *)
Definition y2000 : pdate := mkpdate (Some 2000) (Some 1) (Some 1) (Some 0) (Some 0) (Some 0).
Definition beyond (vmax : Q) (r : option (list Q)) : bool := match r with Some l => existsb (qltb vmax) l | None => false end.
Lemma beyond_In vmax r : beyond vmax r = true -> exists l t, r = Some l /\ In t l /\ (vmax < t)%Q.
Proof. destruct r as [l|]; [|discriminate]. cbn. rewrite existsb_exists. intros (t & Hi & Ht). apply qltb_true in Ht. eauto. Qed.
(** Every tenth day from 1 March 2001 to noon of the 31st: 1 April, after the end of the interval, is marked as well. *)
Theorem C57_beyond_refuted : exists vmin vmax l t, (vmin <= vmax)%Q /\ ticks Std y2000 Days (mday_prior Std y2000 Days 10) (mday_next Std y2000 Days 10) vmin vmax = Some l /\ In t l /\ (vmax < t)%Q.
Proof.
  exists (inject_Z 425), (911 # 2)%Q.
  destruct (beyond_In (911 # 2)%Q (ticks Std y2000 Days (mday_prior Std y2000 Days 10) (mday_next Std y2000 Days 10) (inject_Z 425) (911 # 2)%Q)) as (l & t & H); [vm_compute; reflexivity|].
  exists l, t. split; [discriminate|exact H].
Qed.
Print Assumptions C57_beyond_refuted.
(** On a yearless axis, between noon of day 0 and noon of day 4 there are four midnights, and nticks answers five. *)
Theorem C57_day_count_refuted : exists vmin vmax l n, (vmin <= vmax)%Q /\
  ticks Yearless (mkpdate None None (Some 0) (Some 0) (Some 0) (Some 0)) Days (day_prior Yearless (mkpdate None None (Some 0) (Some 0) (Some 0) (Some 0)) Days 1) (day_next Yearless (mkpdate None None (Some 0) (Some 0) (Some 0) (Some 0)) Days 1) vmin vmax = Some l /\
  day_nticks Yearless (mkpdate None None (Some 0) (Some 0) (Some 0) (Some 0)) Days 1 vmin vmax = Some n /\ length l = 4%nat /\ (n == inject_Z 5)%Q.
Proof. exists (1 # 2)%Q, (9 # 2)%Q. eexists. eexists. split; [discriminate|]. split; [vm_compute; reflexivity|]. split; [vm_compute; reflexivity|]. split; reflexivity. Qed.
Print Assumptions C57_day_count_refuted.

(** *** cases *)
Example y2000_good : good_start Std (get_dates y2000). Proof. vm_compute. repeat split; try discriminate; auto. Qed.
Example years_marked : ticks Std y2000 Days (year_prior Std y2000 Days 1) (year_next Std y2000 Days 1) (inject_Z (-100)) (inject_Z 800) = Some [0 # 86400; 31622400 # 86400; 63158400 # 86400].
Proof. vm_compute. reflexivity. Qed.
Example hours_marked : option_map (map Qred) (ticks Std y2000 Hours (clock_prior Std y2000 Hours CHour 6) (clock_next Std y2000 Hours CHour 6) (inject_Z 5) (inject_Z 25)) = Some [inject_Z 6; inject_Z 12; inject_Z 18; inject_Z 24].
Proof. vm_compute. reflexivity. Qed.
Example months_marked : option_map (map Qred) (ticks Std y2000 Days (month_prior Std y2000 Days 3) (month_next Std y2000 Days 3) (inject_Z 1) (inject_Z 300)) = Some [inject_Z 91; inject_Z 182; inject_Z 274].
Proof. vm_compute. reflexivity. Qed.
(** the interval is open on the right: the end of the axis is not marked *)
Example end_not_marked : option_map (map Qred) (ticks Std y2000 Days (mday_prior Std y2000 Days 1) (mday_next Std y2000 Days 1) (inject_Z 0) (inject_Z 3)) = Some [inject_Z 0; inject_Z 1; inject_Z 2].
Proof. vm_compute. reflexivity. Qed.
Example four_hours : best_mult (fun i => if i =? 0 then inject_Z 2 else if i =? 1 then inject_Z 4 else inject_Z 8) 3 (inject_Z 5) 0 = Some (inject_Z 4, 1).
Proof. vm_compute. reflexivity. Qed.
