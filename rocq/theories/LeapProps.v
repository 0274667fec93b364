(** C34: removing leap days. *)
From Coq Require Import ZArith List Bool QArith Lia.
From Verif Require Import CalModel CalSpec CalProofs TimeSearchModel TimeSearchSpec IndexModel IndexSpec ArrModel ViewModel ViewSpec AxisModel AxisSpec VarOpsModel VarOpsSpec SelectModel StencilModel StencilSpec ConcatModel ClimModel.
From Verif Require Import SortSpec IndexProofs ArrProofs ViewProofs AxisProofs VarOpsProofs VarOpsProps LeapModel LeapSpec LeapProofs LeapAxis LeapVar EnvExample ViewProps.
Import ListNotations.
Open Scope Z_scope.
Notation zlen := IndexSpec.zlen.
Notation znth := ArrModel.znth.

(** any calendars, any lists of days to leave out of leap years and of other years: exactly the times on other days are left; each
    is labelled with the same time of day, and the day that has the same number when the days left out are not counted; the data of the other times is unchanged *)
Theorem C34_days : forall V env (junk : list Z -> V) (x : var axis V) D ti t leap noleap cls c',
  env_ok env -> holds env x D -> one_time_axis x ti t -> my (t_mask t) = true -> t_cal t <> Yearless -> c' <> Yearless ->
  in_year_order (t_dates t) -> room_for x ti cls ->
  (forall d, In d (t_dates t) -> sensible (t_cal t) c' leap noleap (year d)) ->
  (exists d, In d (t_dates t) /\ ~ left_out (t_cal t) leap noleap (complete (t_mask t) d)) ->
  exists y D' u l, removeleapyears env junk x leap noleap cls c' = Some y /\ var_axes y = set_at (var_axes x) ti (Time u) /\ holds env y D' /\
    t_class u = cls /\ t_cal u = c' /\ t_mask u = mkmask true true true true true true /\
    increasing l /\ (forall i, In i l <-> exists d, elem (t_dates t) i d /\ ~ left_out (t_cal t) leap noleap (complete (t_mask t) d)) /\
    Forall2 (fun i e => exists d, elem (t_dates t) i d /\ relabelled (t_cal t) c' leap noleap (complete (t_mask t) d) e) l (t_dates u) /\
    forall p, position (var_shape y) p -> D' p = D (moved p ti (znth l (nth ti p 0))).
Proof. intros V. exact days_statement. Qed.
Print Assumptions C34_days.

Ltac tabulate := repeat match goal with
  | |- context [mlen ?b ?m] => let v := eval vm_compute in (mlen b m) in change (mlen b m) with v
  | |- context [month2doy ?b ?m] => let v := eval vm_compute in (month2doy b m) in change (month2doy b m) with v end.
Lemma left_out_29 d : valid_date Std d -> left_out Std [60] [] d <-> month d = 2 /\ day d = 29.
Proof.
  intros Hv. assert (Std <> Yearless) as Hc by discriminate. pose proof (valid_month _ _ Hc Hv) as Hm. pose proof Hv as [_ (n & Hn & Hd)]. apply mlen_spec in Hn as [_ ->].
  assert (left_out Std [60] [] d <-> isleap (year d) = true /\ month2doy true (month d) + day d = 60) as ->.
  { unfold left_out. split.
    - intros (out & n & H1 & H2 & H3). apply to_omit_is in H1. unfold omitted, leapish in H1. subst out. apply doy_is in H2; [|exact Hc|exact Hm]. unfold doyf, leapish in H2.
      destruct (isleap (year d)); [|destruct H3]. destruct H3 as [H3|[]]. split; [reflexivity|lia].
    - intros [H1 H2]. exists (omitted Std [60] [] (year d)), (doyf Std d). split; [now apply to_omit_is|]. split; [now apply doy_fun|]. unfold omitted, doyf, leapish. rewrite H1, H2. now left. }
  assert (month d = 1 \/ month d = 2 \/ month d = 3 \/ month d = 4 \/ month d = 5 \/ month d = 6 \/ month d = 7 \/ month d = 8 \/ month d = 9 \/ month d = 10 \/ month d = 11 \/ month d = 12) as K by lia.
  clear Hm Hc Hv. revert Hd. destruct (isleap (year d)); repeat (destruct K as [K|K]; [rewrite K; tabulate; lia|]); rewrite K; tabulate; lia.
Qed.
Lemma same_label d e : valid_date Std d -> ~ (month d = 2 /\ day d = 29) -> relabelled Std C365 [60] [] d e -> e = d.
Proof.
  intros Hv Hn (He & Y & H1 & H2 & H3 & out & n & Ho & Hd & Hd').
  assert (valid_date C365 d) as Hv'.
  { pose proof Hv as [Ht (m & Hm & Hday)]. split; [exact Ht|]. inversion Hm; subst.
    - exists 28. split; [constructor|]. lia.
    - exists 28. split; [constructor|exact Hday].
    - exists 30. split; [now apply ml_30; [right|]|exact Hday].
    - exists 31. split; [now apply ml_31; [right|]|exact Hday]. }
  assert (Std <> Yearless) as Hc by discriminate. assert (C365 <> Yearless) as Hc' by discriminate.
  apply doy_is in Hd; [|exact Hc|now apply (valid_month Std)]. apply doy_is in Hd'; [|exact Hc'|now apply (valid_month C365)].
  apply (A_inj C365); [exact He|exact Hv'|]. rewrite (A_doy C365 e Hc'), (A_doy C365 d Hc'). rewrite Y. unfold tod. rewrite H1, H2, H3. do 2 f_equal.
  rewrite <- Hd', Hd. clear Hd' Hd. do 2 f_equal. apply to_omit_is in Ho. subst out. unfold omitted, doyf, leapish.
  pose proof (valid_month C365 d Hc' Hv') as Hm. destruct Hv' as [_ (m & Hml & Hday)]. apply mlen365_spec in Hml as [_ ->].
  assert (month d = 1 \/ month d = 2 \/ month d = 3 \/ month d = 4 \/ month d = 5 \/ month d = 6 \/ month d = 7 \/ month d = 8 \/ month d = 9 \/ month d = 10 \/ month d = 11 \/ month d = 12) as K by lia.
  clear - Hday K. destruct (isleap (year d)); [|cbn [filter]; unfold zlen; cbn [length]; lia]. cbn [filter].
  destruct (Z.ltb_spec 60 (month2doy true (month d) + day d)) as [L|L]; unfold zlen; cbn [length]; revert L Hday;
    repeat (destruct K as [K|K]; [rewrite K; tabulate; lia|]); rewrite K; tabulate; lia.
Qed.
Lemma leap_sensible y : sensible Std C365 [60] [] y.
Proof.
  intros out n n' [[_ ->]|[Hn ->]] H H'; cbn in H, H'.
  - split; [constructor; [intros []|constructor]|]. unfold zlen. cbn. destruct H as [[_ ->]|[K ->]]; [split; [constructor; [lia|constructor]|lia]|]. split; [constructor; [lia|constructor]|lia].
  - split; [constructor|]. split; [constructor|]. unfold zlen. cbn. destruct H as [[K ->]|[K ->]]; [|lia]. exfalso. apply Hn. auto.
Qed.

(** the default: exactly the times on the 29th of February are removed; every other time keeps its date and its data, now on a 365-day calendar *)
Theorem C34_leap_days : forall V env (junk : list Z -> V) (x : var axis V) D ti t cls,
  env_ok env -> holds env x D -> one_time_axis x ti t -> my (t_mask t) = true -> t_cal t = Std -> in_year_order (t_dates t) -> room_for x ti cls ->
  (exists d, In d (t_dates t) /\ ~ (month (complete (t_mask t) d) = 2 /\ day (complete (t_mask t) d) = 29)) ->
  exists y D' u l, removeleapyears env junk x [60] [] cls C365 = Some y /\ var_axes y = set_at (var_axes x) ti (Time u) /\ holds env y D' /\
    t_class u = cls /\ t_cal u = C365 /\
    increasing l /\ (forall i, In i l <-> exists d, elem (t_dates t) i d /\ ~ (month (complete (t_mask t) d) = 2 /\ day (complete (t_mask t) d) = 29)) /\
    Forall2 (fun i e => exists d, elem (t_dates t) i d /\ e = complete (t_mask t) d) l (t_dates u) /\
    forall p, position (var_shape y) p -> D' p = D (moved p ti (znth l (nth ti p 0))).
Proof.
  intros V env junk x D ti t cls Henv Hx Hti Hk Hc Ho Hroom Hkept.
  assert (good_axis (Time t)) as Hg by (destruct Hx as [_ Hx], Hti as [Hti _]; rewrite Forall_forall in Hx; apply Hx; eapply nth_error_In; exact Hti).
  assert (forall d, In d (t_dates t) -> valid_date Std (complete (t_mask t) d)) as Hfv by (intros d Hd; rewrite <- Hc; destruct Hg as (_ & Hv & _); now apply full_valid).
  destruct (C34_days V env junk x D ti t [60] [] cls C365) as (y & D' & u & l & H1 & H2 & H3 & H4 & H5 & _ & H6 & H7 & H8 & H9); try assumption; try (rewrite Hc); try discriminate.
  - intros d _. apply leap_sensible.
  - destruct Hkept as (d & Hd & K). exists d. split; [exact Hd|]. now rewrite left_out_29 by now apply Hfv.
  - exists y, D', u, l. rewrite Hc in H7, H8.
    assert (forall i, In i l <-> exists d, elem (t_dates t) i d /\ ~ (month (complete (t_mask t) d) = 2 /\ day (complete (t_mask t) d) = 29)) as H7'.
    { intros i. rewrite H7. split; intros (d & K1 & K2); exists d; (split; [exact K1|]); now rewrite left_out_29 in * by (apply Hfv; exact (elem_In _ _ _ K1)). }
    repeat (split; [assumption|]). split; [|exact H9].
    assert (Forall (fun i => exists d, elem (t_dates t) i d /\ ~ (month (complete (t_mask t) d) = 2 /\ day (complete (t_mask t) d) = 29)) l) as Hall by (apply Forall_forall; intros i Hi; now apply H7').
    clear - H8 Hall Hfv. induction H8 as [|i e l es (d & Hi & R) _ IH]; [constructor|]. inversion Hall as [|? ? (d' & Hi' & N) Hall']; subst. constructor; [|now apply IH].
    rewrite (elem_fun _ _ _ _ Hi' Hi) in N. exists d. split; [exact Hi|]. apply same_label; auto. apply Hfv. exact (elem_In _ _ _ Hi).
Qed.
Print Assumptions C34_leap_days.

(** *** examples: 28 and 29 February and 1 March 2000, 12:00, and 1 March 2001 *)
Definition spring : taxis :=
  MkTime [3; 5] Std (mkpdate (Some 2000) (Some 1) (Some 1) None None None) Days (mkmask true true true true false false)
    [mkdate 2000 2 28 12 0 0; mkdate 2000 2 29 12 0 0; mkdate 2000 3 1 12 0 0; mkdate 2001 3 1 12 0 0] [5054400 # 86400; 5140800 # 86400; 5227200 # 86400; 36763200 # 86400]%Q.
Definition rain : var axis Z := Var [Time spring; lon3] (Values (Arr [4; 3] table)).
Lemma stands_alone {V} (t : taxis) (s : source axis V) : t_class t = [3; 5] -> separate (var_axes (Var [Time t; lon3] s)).
Proof.
  intros Ht [|[|i]] [|[|j]] a b Ha Hb Hne; cbn in Ha, Hb; try congruence; try (destruct i; discriminate); try (destruct j; discriminate);
    injection Ha as <-; injection Hb as <-; cbn; unfold unrelated; cbn; now rewrite ?Ht.
Qed.
Lemma lon3_fine : good_axis lon3.
Proof. destruct (blocks_holds env0) as [_ H]. inversion H as [|? ? _ H']. now inversion H'. Qed.
Lemma feb00 : month_length Std 2000 2 29.
Proof. apply ml_feb_leap. split; [exists 500; reflexivity|right; exists 5; reflexivity]. Qed.
Lemma odd_months y m : m = 1 \/ m = 3 -> month_length Std y m 31.
Proof. intros H. apply ml_31; [now left|lia]. Qed.
Lemma spring_good : good_axis (Time spring).
Proof.
  split; [vm_compute; split; discriminate|]. split; [|split; [discriminate|split; [vm_compute; reflexivity|split]]].
  - repeat constructor; try (cbn; lia); [exists 29|exists 29|exists 31|exists 31]; (split; [first [exact feb00|apply odd_months; cbn; lia]|cbn; lia]).
  - cbn. repeat (constructor; [cbn; intros H; repeat (destruct H as [H|H]; [discriminate|]); exact H|]). constructor.
  - vm_compute. repeat constructor; discriminate.
Qed.
Lemma rain_holds : holds env0 rain table.
Proof.
  split; [split|].
  - split; [reflexivity|]. reflexivity.
  - now apply stands_alone.
  - constructor; [exact spring_good|]. constructor; [exact lon3_fine|constructor].
Qed.
Definition dates_of (x : option (var axis Z)) : option (list date) :=
  match x with Some y => match nth_error (var_axes y) 0 with Some (Time t) => Some (t_dates t) | _ => None end | None => None end.
Example C34_example :
  holds env0 rain table /\ one_time_axis rain 0 spring /\ in_year_order (t_dates spring) /\ room_for rain 0 [3; 6] /\
  dates_of (removeleapyears env0 (fun _ => 0) rain [60] [] [3; 6] C365) = Some [mkdate 2000 2 28 12 0 0; mkdate 2000 3 1 12 0 0; mkdate 2001 3 1 12 0 0] /\
  look (removeleapyears env0 (fun _ => 0) rain [60] [] [3; 6] C365) [[0; 1]; [1; 1]; [2; 1]] = Some ([3; 3], [1; 21; 31]) /\
  (* onto 360-day years, leaving out five or six days *)
  dates_of (removeleapyears env0 (fun _ => 0) rain [31; 60; 365; 152; 213; 244] [31; 365; 152; 213; 244] [3; 7] C360)
    = Some [mkdate 2000 2 28 12 0 0; mkdate 2000 2 29 12 0 0; mkdate 2001 2 29 12 0 0] /\
  look (removeleapyears env0 (fun _ => 0) rain [31; 60; 365; 152; 213; 244] [31; 365; 152; 213; 244] [3; 7] C360) [[0; 1]; [1; 1]; [2; 1]] = Some ([3; 3], [1; 21; 31]).
Proof.
  split; [exact rain_holds|]. split; [|split; [|split; [|split; [|split; [|split]]]]]; try (vm_compute; reflexivity).
  - split; [reflexivity|]. intros [|[|i]] s H; [reflexivity|discriminate|destruct i; discriminate].
  - intros i j a b [Hi Ha] [Hj Hb] Hij. assert (forall k d, nth_error (t_dates spring) k = Some d -> year d = if (k <? 3)%nat then 2000 else 2001) as H.
    { intros [|[|[|[|k]]]] d H; try (injection H as <-; reflexivity). destruct k; discriminate. }
    rewrite (H _ _ Ha), (H _ _ Hb). destruct (Nat.ltb_spec (Z.to_nat i) 3), (Nat.ltb_spec (Z.to_nat j) 3); lia.
  - intros [|[|i]] b u Hi Hb Hu; [congruence| |destruct i; discriminate]. injection Hb as <-. unfold unrelated. cbn. now rewrite Hu.
Qed.

(** *** the years have to come in order: the data of the 5th of January 2001 gets the label 7 January 2000, and the other way round *)
Definition backwards : taxis :=
  MkTime [3; 5] Std (mkpdate (Some 2000) (Some 1) (Some 1) None None None) Days (mkmask true true true true false false)
    [mkdate 2001 1 5 0 0 0; mkdate 2000 1 7 0 0 0] [31968000 # 86400; 518400 # 86400]%Q.
Definition snow : var axis Z := Var [Time backwards; lon3] (Values (Arr [2; 3] table)).
Lemma snow_holds : holds env0 snow table.
Proof.
  split; [split|].
  - split; [reflexivity|]. reflexivity.
  - now apply stands_alone.
  - constructor; [|constructor; [exact lon3_fine|constructor]].
    split; [vm_compute; split; discriminate|]. split; [|split; [discriminate|split; [vm_compute; reflexivity|split]]].
    + repeat constructor; try (cbn; lia); exists 31; (split; [apply odd_months; cbn; lia|cbn; lia]).
    + cbn. repeat (constructor; [cbn; intros H; repeat (destruct H as [H|H]; [discriminate|]); exact H|]). constructor.
    + vm_compute. repeat constructor; discriminate.
Qed.
Theorem C34_unordered_refuted : exists (x : var axis Z) t, holds env0 x table /\ one_time_axis x 0 t /\ my (t_mask t) = true /\ t_cal t = Std /\
  t_dates t = [mkdate 2001 1 5 0 0 0; mkdate 2000 1 7 0 0 0] /\
  exists y u, removeleapyears env0 (fun _ => 0) x [60] [] [3; 6] C365 = Some y /\ nth_error (var_axes y) 0 = Some (Time u) /\
    t_dates u = [mkdate 2000 1 7 0 0 0; mkdate 2001 1 5 0 0 0] /\
    exists r, var_get env0 (fun _ => 0) y = Some r /\ shape r = [2; 3] /\ map (val r) [[0; 0]; [1; 0]] = map table [[0; 0]; [1; 0]].
Proof.
  exists snow, backwards. split; [exact snow_holds|]. split; [split; [reflexivity|intros [|[|i]] s H; [reflexivity|discriminate|destruct i; discriminate]]|].
  split; [reflexivity|]. split; [reflexivity|]. split; [reflexivity|].
  assert (dates_of (removeleapyears env0 (fun _ => 0) snow [60] [] [3; 6] C365) = Some [mkdate 2000 1 7 0 0 0; mkdate 2001 1 5 0 0 0]) as H1 by (vm_compute; reflexivity).
  assert (look (removeleapyears env0 (fun _ => 0) snow [60] [] [3; 6] C365) [[0; 0]; [1; 0]] = Some ([2; 3], map table [[0; 0]; [1; 0]])) as H2 by (vm_compute; reflexivity).
  destruct (removeleapyears env0 (fun _ => 0) snow [60] [] [3; 6] C365) as [y|]; [|discriminate]. cbn [dates_of look] in *.
  destruct (nth_error (var_axes y) 0) as [[| |u]|] eqn:Eu; try discriminate. injection H1 as H1.
  exists y, u. split; [reflexivity|]. split; [exact Eu|]. split; [exact H1|].
  destruct (var_get env0 (fun _ => 0) y) as [r|]; [|discriminate]. injection H2 as H2 H3 H4. exists r. split; [reflexivity|]. split; [exact H2|]. cbn [map]. now rewrite H3, H4.
Qed.
Print Assumptions C34_unordered_refuted.

(** a day may not be listed twice: with [60; 60] the 1st of March is taken out of the new time axis as well but not out of the data, and the call fails *)
Theorem C34_twice_refuted : exists (x : var axis Z) t, holds env0 x table /\ one_time_axis x 0 t /\ t_cal t = Std /\ in_year_order (t_dates t) /\
  removeleapyears env0 (fun _ => 0) x [60] [] [3; 6] C365 <> None /\ removeleapyears env0 (fun _ => 0) x [60; 60] [] [3; 6] C365 = None.
Proof.
  exists rain, spring. destruct C34_example as (H1 & H2 & H3 & _). split; [exact H1|]. split; [exact H2|]. split; [reflexivity|]. split; [exact H3|]. split.
  - assert (dates_of (removeleapyears env0 (fun _ => 0) rain [60] [] [3; 6] C365) <> None) as H by (vm_compute; discriminate). intros E. now rewrite E in H.
  - vm_compute. reflexivity.
Qed.
Print Assumptions C34_twice_refuted.
