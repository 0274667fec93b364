(** C49: time axes written with CF meta-data and read again. *)
From Coq Require Import ZArith List Bool QArith_base Ascii String Lia.
From Verif Require Import CalModel CalSpec CalProofs TimeSearchModel TimeDateProofs IndexModel ViewModel AxisModel ClimModel StencilModel CfModel CfSpec CfText CfProofs.
Import ListNotations.
Open Scope Z_scope.

(** Reading: every text of the form <unit> since <year>-<month>-<day>, with or without a time of day, gives that unit and that date. *)
Theorem C49_reference_read : forall s u d, reference s u d -> read_units s = Some (u, d).
Proof. exact read_reference. Qed.
Theorem C49_calendar_read : forall s c, names_calendar s c -> read_calendar s = Some c.
Proof. exact read_calendar_name. Qed.
(** Writing: what encode_cf writes is such a text, for the unit and the start of the axis. *)
Theorem C49_reference_written : forall u p, nonnegative (get_dates p) -> reference (units_text u p) u (get_dates p).
Proof. exact units_reference. Qed.

Definition six_fields : mask := mkmask true true true true true true.
Definition five_fields : mask := mkmask false true true true true true.
Definition four_fields : mask := mkmask false false true true true true.

(** A dataset's time axis [a], encoded and decoded again: *)
Definition comes_back (tcls : cal -> class) (a : caxis) (b : caxis) : Prop := forall cosines others vars,
  exists e, encode_axis others a = Some (e, []) /\ decode_axis tcls cosines vars e = Some (b, []).

(** whatever its fields, the calendar, the units, the start, the instants and the values come back, *)
Theorem C49_instants_kept : forall tcls a t start,
  x_content a = Times t -> time_axis tcls t start -> nonnegative (get_dates (t_start t)) -> lookup "ancillary_variables" (x_atts a) = None ->
  exists b t', comes_back tcls a b /\ x_content b = Times t' /\ x_name b = x_name a /\
    t_class t' = t_class t /\ t_cal t' = t_cal t /\ t_units t' = t_units t /\ get_dates (t_start t') = get_dates (t_start t) /\
    instants t' = instants t /\ t_vals t' = t_vals t.
Proof.
  intros tcls a t start Hc T N Ha.
  destruct (axis_round_trip tcls (fun v => v) [] [] a t start Hc T N Ha) as (e & atts & t' & E & D & R & _).
  exists (CAxis (x_name a) atts (Times t')), t'. split.
  { intros cosines others vars. destruct (axis_round_trip tcls cosines others vars a t start Hc T N Ha) as (e' & atts' & t2 & E' & D' & R' & _).
    exists e'. split; auto. assert (e' = e) as ->.
    { unfold encode_axis in E, E'. rewrite Hc in E, E'. destruct (sequence _) in *; cbn [bind] in *; congruence. }
    assert (Q : decode_axis tcls cosines vars e = decode_axis tcls (fun v => v) [] e).
    { unfold encode_axis in E. rewrite Hc in E. destruct (sequence _) eqn:S in E; cbn [bind] in E; [|discriminate].
      injection E as <-. clear D' E' D. unfold decode_axis. cbn [x_content x_name x_atts].
      match goal with |- context [lookup "ancillary_variables" ?d] => replace (lookup "ancillary_variables" d) with (@None string) by (symmetry; looked; exact Ha) end.
      cbn [bind]. unfold dget.
      match goal with |- context [lookup "standard_name" ?d] => replace (lookup "standard_name" d) with (Some "time"%string) by (symmetry; looked; reflexivity) end.
      match goal with |- context [lookup "units" ?d] => replace (lookup "units" d) with (Some (units_text (t_units t) (t_start t))) by (symmetry; looked; reflexivity) end.
      change (lower "time") with "time"%string. unfold since, units_text. rewrite units_since. change (String.eqb "time" "time") with true. cbn [orb andb]. reflexivity. }
    rewrite Q. exact D. }
  destruct (read_time tcls t start T N) as (t2 & R2 & C1 & C2 & C3 & C4 & C5 & C6 & C7 & C8 & C9).
  rewrite R in R2. injection R2 as <-. do 6 (split; [auto|]). split; [|exact C7].
  unfold instants at 1. rewrite C6. rewrite <- (map_id (instants t)) at 2. apply map_ext_in. intros d Hd.
  destruct C9 as [(Y1 & Y2 & M)|(_ & M)]; rewrite M; [|apply get_all].
  rewrite Forall_forall in Y2. apply late_get; [|apply Y2, Hd].
  intros K. unfold instants in Hd. apply in_map_iff in Hd. destruct Hd as (x & <- & Hx).
  destruct T as [_ _ _ V _]. rewrite Forall_forall in V. assert (W := masked_valid _ (t_mask t) x (V x Hx)). rewrite K in W. apply W.
Qed.

(** and so do the attributes, except those that describe the encoding (the standard name stays behind). *)
Theorem C49_attributes : forall tcls cosines others vars a t start,
  x_content a = Times t -> time_axis tcls t start -> nonnegative (get_dates (t_start t)) -> lookup "ancillary_variables" (x_atts a) = None ->
  exists e b, encode_axis others a = Some (e, []) /\ decode_axis tcls cosines vars e = Some (b, []) /\
    lookup "standard_name" (x_atts b) = Some "time"%string /\
    (forall k, In k ["axis"; "units"; "calendar"]%string -> lookup k (x_atts b) = None) /\
    (forall k, ~ In k ["standard_name"; "axis"; "units"; "calendar"]%string -> lookup k (x_atts b) = lookup k (x_atts a)).
Proof.
  intros tcls cosines others vars a t start Hc T N Ha.
  destruct (axis_round_trip tcls cosines others vars a t start Hc T N Ha) as (e & atts & t' & E & D & _ & A1 & A2 & A3).
  exists e, (CAxis (x_name a) atts (Times t')). auto.
Qed.

(** The very same axis comes back if it has all six fields (and does not lie within the year 0), *)
Definition returns (tcls : cal -> class) (a : caxis) (t : taxis) : Prop :=
  exists b t', comes_back tcls a b /\ x_name b = x_name a /\ x_content b = Times t' /\ same_times t' t.

Lemma returned tcls a t start k : x_content a = Times t -> time_axis tcls t start -> nonnegative (get_dates (t_start t)) ->
  lookup "ancillary_variables" (x_atts a) = None -> t_mask t = k ->
  (forall t', decode_time tcls (t_cal t) (units_text (t_units t) (t_start t)) (t_vals t) = Some t' -> t_mask t' = k) -> returns tcls a t.
Proof.
  intros Hc T N Ha K M. destruct (C49_instants_kept tcls a t start Hc T N Ha) as (b & t' & B & Hb & Nm & A1 & A2 & A3 & A4 & A5 & A6).
  exists b, t'. do 3 (split; [auto|]).
  destruct (read_time tcls t start T N) as (t2 & R2 & C1 & C2 & C3 & C4 & C5 & C6 & C7 & _).
  assert (t2 = t') as ->.
  { destruct (B (fun v => v) [] []) as (e & E & D). destruct (axis_round_trip tcls (fun v => v) [] [] a t start Hc T N Ha) as (e' & atts & t3 & E' & D' & R & _).
    rewrite E in E'. injection E' as <-. rewrite D in D'. injection D' as ->. cbn in Hb. injection Hb as ->. congruence. }
  specialize (M t' R2). unfold same_times. rewrite M, K. repeat split; auto.
  - rewrite C5, M. destruct T as [_ S _ _ _]. rewrite S, K. destruct start, k as [[] [] [] [] [] []]; reflexivity.
  - rewrite C6. unfold instants. rewrite K, map_map. apply map_ext. intros d. destruct d, k as [[] [] [] [] [] []]; reflexivity.
Qed.

Theorem C49_six_fields : forall tcls a t start,
  x_content a = Times t -> time_axis tcls t start -> nonnegative start -> lookup "ancillary_variables" (x_atts a) = None ->
  t_mask t = six_fields -> (year start <> 0 \/ exists d, In d (t_dates t) /\ year d <> 0) -> returns tcls a t.
Proof.
  intros tcls a t start Hc T N Ha K Y. assert (S := ta_start _ _ _ T). rewrite K in S.
  assert (G : get_dates (t_start t) = start) by (rewrite S; apply get_all).
  assert (N' : nonnegative (get_dates (t_start t))) by (rewrite G; exact N).
  apply (returned tcls a t start six_fields Hc T N' Ha K). intros t' R.
  destruct (read_time tcls t start T N') as (t2 & R2 & _ & _ & _ & _ & _ & _ & _ & _ & C). rewrite R in R2. injection R2 as <-.
  destruct C as [(Y1 & Y2 & _)|(_ & M)]; [|exact M]. exfalso. rewrite G in Y1. destruct Y as [Y|(d & Hd & Y)]; [auto|].
  apply Y. rewrite Forall_forall in Y2. assert (X := Y2 (get_dates (mask_date (t_mask t) d)) ltac:(unfold instants; apply in_map_iff; eauto)).
  rewrite K in X. exact X.
Qed.

(** or if it is a climatology with all the other fields, *)
Theorem C49_climatology : forall tcls a t start,
  x_content a = Times t -> time_axis tcls t start -> nonnegative (get_dates (t_start t)) -> lookup "ancillary_variables" (x_atts a) = None ->
  t_cal t <> Yearless -> t_mask t = five_fields -> returns tcls a t.
Proof.
  intros tcls a t start Hc T N Ha Hy K. apply (returned tcls a t start five_fields Hc T N Ha K). intros t' R.
  destruct (read_time tcls t start T N) as (t2 & R2 & _ & _ & _ & _ & _ & _ & _ & _ & C). rewrite R in R2. injection R2 as <-.
  assert (S := ta_start _ _ _ T). rewrite K in S.
  destruct C as [(_ & _ & M)|(C & _)]; [rewrite M; destruct (t_cal t); [reflexivity|reflexivity|reflexivity|congruence]|].
  exfalso. apply C. split; [rewrite S; reflexivity|]. apply Forall_forall. unfold instants. intros d Hd. apply in_map_iff in Hd. destruct Hd as (x & <- & _). rewrite K. reflexivity.
Qed.
(** or if its calendar has no years and it has all the fields of that calendar. *)
Theorem C49_yearless : forall tcls a t start,
  x_content a = Times t -> time_axis tcls t start -> nonnegative (get_dates (t_start t)) -> lookup "ancillary_variables" (x_atts a) = None ->
  t_cal t = Yearless -> t_mask t = four_fields -> returns tcls a t.
Proof.
  intros tcls a t start Hc T N Ha Hy K. apply (returned tcls a t start four_fields Hc T N Ha K). intros t' R.
  destruct (read_time tcls t start T N) as (t2 & R2 & _ & _ & _ & _ & _ & _ & _ & _ & C). rewrite R in R2. injection R2 as <-.
  assert (S := ta_start _ _ _ T). rewrite K in S.
  destruct C as [(_ & _ & M)|(C & _)]; [rewrite M, Hy; reflexivity|].
  exfalso. apply C. split; [rewrite S; reflexivity|]. apply Forall_forall. unfold instants. intros d Hd. apply in_map_iff in Hd. destruct Hd as (x & <- & _). rewrite K. reflexivity.
Qed.

Lemma yearless_or c : c = Yearless \/ c <> Yearless.
Proof. destruct c; [right; discriminate|right; discriminate|right; discriminate|left; reflexivity]. Qed.
(** Nothing more changes the second time: an axis that came back once comes back as it is from then on. *)
Theorem C49_stable : forall tcls a t start,
  x_content a = Times t -> time_axis tcls t start -> nonnegative (get_dates (t_start t)) -> lookup "ancillary_variables" (x_atts a) = None ->
  exists b t', comes_back tcls a b /\ x_content b = Times t' /\ returns tcls b t'.
Proof.
  intros tcls a t start Hc T N Ha. destruct (C49_instants_kept tcls a t start Hc T N Ha) as (b & t' & B & Hb & Nm & A1 & A2 & A3 & A4 & A5 & A6).
  exists b, t'. split; [exact B|]. split; [exact Hb|].
  destruct (axis_round_trip tcls (fun v => v) [] [] a t start Hc T N Ha) as (e & atts & t3 & E & D & R & _ & _ & L).
  assert (Hb2 : b = CAxis (x_name a) atts (Times t3)).
  { destruct (B (fun v => v) [] []) as (e' & E' & D'). rewrite E in E'. injection E' as <-. rewrite D in D'. injection D' as <-. reflexivity. }
  assert (t3 = t') as -> by (subst b; cbn [x_content] in Hb; injection Hb as ->; reflexivity).
  destruct (read_time tcls t start T N) as (t2 & R2 & C1 & C2 & C3 & C4 & C5 & C6 & C7 & C8 & C9). rewrite R in R2. injection R2 as <-.
  assert (T' : time_axis tcls t' (get_dates (t_start t))).
  { constructor; auto.
    - rewrite C1, C2. apply (ta_class _ _ _ T).
    - rewrite C4, C2. apply (ta_good _ _ _ T).
    - rewrite C2, C6. apply Forall_forall. intros d Hd. unfold instants in Hd. apply in_map_iff in Hd. destruct Hd as (x & <- & Hx).
      apply masked_valid. assert (V := ta_dates _ _ _ T). rewrite Forall_forall in V. auto. }
  assert (N' : nonnegative (get_dates (t_start t'))) by (rewrite C4; exact N).
  assert (Hb' : lookup "ancillary_variables" (x_atts b) = None).
  { subst b. cbn [x_atts]. rewrite L; [exact Ha|]. intros [X|[X|[X|[X|[]]]]]; discriminate X. }
  destruct C9 as [(Y1 & Y2 & M)|(C & M)].
  - destruct (yearless_or (t_cal t)) as [K|K].
    + apply (C49_yearless tcls b t' (get_dates (t_start t)) Hb T' N' Hb'); [congruence|]. rewrite M, K. reflexivity.
    + apply (C49_climatology tcls b t' (get_dates (t_start t)) Hb T' N' Hb'); [congruence|]. rewrite M. destruct (t_cal t); [reflexivity|reflexivity|reflexivity|congruence].
  - apply (C49_six_fields tcls b t' (get_dates (t_start t)) Hb T' N Hb' M).
    destruct (Z.eq_dec (year (get_dates (t_start t))) 0) as [Y|Y]; [right|left; exact Y].
    rewrite C6. destruct (Exists_dec (fun d => year d <> 0) (instants t)) as [X|X].
    { intros d. destruct (Z.eq_dec (year d) 0); [right; auto|left; auto]. }
    + apply Exists_exists in X. destruct X as (d & X1 & X2). eauto.
    + exfalso. apply C. split; auto. apply Forall_forall. intros d Hd. destruct (Z.eq_dec (year d) 0); auto. exfalso. apply X. apply Exists_exists. eauto.
Qed.

(** *** What does not come back *)
Definition plain_class (c : cal) : class := match c with Std => [1; 1] | C365 => [1; 2] | C360 => [1; 3] | Yearless => [1; 4] end.
Lemma std_dates l : forallb (fun d => (1 <=? month d) && (month d <=? 12) && (1 <=? day d) && (day d <=? 28) && (0 <=? hour d) && (hour d <? 24) && (0 <=? minute d) && (minute d <? 60) && (0 <=? second d) && (second d <? 60)) l = true -> Forall (valid_date Std) l.
Proof.
  intros H. apply Forall_forall. intros d Hd. rewrite forallb_forall in H. specialize (H d Hd). cbv beta in H.
  repeat match type of H with _ && _ = true => apply andb_prop in H; let X := fresh "X" in destruct H as [H X] end.
  repeat match goal with X : (_ <=? _) = true |- _ => apply Z.leb_le in X | X : (_ <? _) = true |- _ => apply Z.ltb_lt in X end.
  apply vstd_valid. unfold vstd, valid_time. assert (28 <= mlen (isleap (year d)) (month d)).
  { assert (C : month d = 1 \/ month d = 2 \/ month d = 3 \/ month d = 4 \/ month d = 5 \/ month d = 6 \/ month d = 7 \/ month d = 8 \/ month d = 9 \/ month d = 10 \/ month d = 11 \/ month d = 12) by lia.
    destruct (isleap (year d)); destruct C as [->|[->|[->|[->|[->|[->|[->|[->|[->|[->|[->| ->]]]]]]]]]]]; vm_compute; discriminate. }
  repeat split; lia.
Qed.
Ltac axis_values := vm_compute; reflexivity.
(** the year 1 BC (year -1 of the calendar): the start date cannot be read back *)
Definition ancient : taxis :=
  MkTime [1; 1] Std (mask_date six_fields (mkdate (-1) 1 1 0 0 0)) Days six_fields [mkdate (-1) 1 1 0 0 0; mkdate (-1) 1 2 12 0 0] [0 # 86400; 129600 # 86400]%Q.
Theorem C49_negative_year_refuted : exists a t start e, x_content a = Times t /\ time_axis plain_class t start /\ x_atts a = [] /\ t_mask t = six_fields /\
  encode_axis [] a = Some (e, []) /\ lookup "units" (x_atts e) = Some "days since -001-01-01 00:00:00"%string /\
  forall cosines vars, decode_axis plain_class cosines vars e = None.
Proof.
  exists (CAxis "time" [] (Times ancient)), ancient, (mkdate (-1) 1 1 0 0 0).
  eexists. split; [reflexivity|]. split.
  { constructor; try reflexivity; [split; discriminate|apply std_dates; reflexivity]. }
  split; [reflexivity|]. split; [reflexivity|]. split; [vm_compute; reflexivity|]. split; [vm_compute; reflexivity|]. intros. vm_compute. reflexivity.
Qed.
(** an axis with all fields that lies within the year 0 loses its years *)
Definition year_zero : taxis :=
  MkTime [1; 1] Std (mask_date six_fields (mkdate 0 1 1 0 0 0)) Days six_fields [mkdate 0 1 1 0 0 0; mkdate 0 3 1 12 0 0] [0 # 86400; 5227200 # 86400]%Q.
Theorem C49_year_zero_refuted : exists a t start b t', x_content a = Times t /\ time_axis plain_class t start /\ nonnegative start /\ x_atts a = [] /\
  t_mask t = six_fields /\ comes_back plain_class a b /\ x_content b = Times t' /\ t_mask t' = five_fields /\ time_eq t t' = false.
Proof.
  assert (T : time_axis plain_class year_zero (mkdate 0 1 1 0 0 0)) by (constructor; try reflexivity; [split; discriminate|apply std_dates; reflexivity]).
  assert (N : nonnegative (get_dates (t_start year_zero))) by (vm_compute; intuition discriminate).
  destruct (C49_instants_kept plain_class (CAxis "time" [] (Times year_zero)) year_zero _ eq_refl T N eq_refl) as (b & t' & B & Hb & _).
  exists (CAxis "time" [] (Times year_zero)), year_zero, (mkdate 0 1 1 0 0 0), b, t'. do 6 (split; [first [reflexivity | exact T | exact N | exact B]|]). split; [exact Hb|].
  destruct (B (fun v => v) [] []) as (e & E & D). vm_compute in E. injection E as <-.
  assert (D' : match decode_axis plain_class (fun v => v) []
      (CAxis "time" [("standard_name", "time"); ("units", "days since 0000-01-01 00:00:00"); ("calendar", "standard"); ("axis", "T")]%string (Points KNamed [0 # 86400; 5227200 # 86400]%Q [])) with
     | Some (x, _) => match x_content x with Times t => t_mask t = five_fields /\ time_eq year_zero t = false | _ => False end | None => False end) by (vm_compute; auto).
  rewrite D in D'. rewrite Hb in D'. exact D'.
Qed.
(** an axis with fewer fields comes back with more *)
Definition monthly : taxis :=
  MkTime [1; 1] Std (mask_date (mkmask true true false false false false) (mkdate 2000 1 1 0 0 0)) Days (mkmask true true false false false false)
    [mkdate 2000 1 1 0 0 0; mkdate 2000 2 1 0 0 0] [0 # 86400; 2678400 # 86400]%Q.
Theorem C49_fewer_fields_refuted : exists a t start b t', x_content a = Times t /\ time_axis plain_class t start /\ nonnegative start /\ x_atts a = [] /\
  t_mask t = mkmask true true false false false false /\ comes_back plain_class a b /\ x_content b = Times t' /\ t_mask t' = six_fields /\ time_eq t t' = false.
Proof.
  assert (T : time_axis plain_class monthly (mkdate 2000 1 1 0 0 0)) by (constructor; try reflexivity; [split; discriminate|apply std_dates; reflexivity]).
  assert (N : nonnegative (get_dates (t_start monthly))) by (vm_compute; intuition discriminate).
  destruct (C49_instants_kept plain_class (CAxis "time" [] (Times monthly)) monthly _ eq_refl T N eq_refl) as (b & t' & B & Hb & _).
  exists (CAxis "time" [] (Times monthly)), monthly, (mkdate 2000 1 1 0 0 0), b, t'. do 6 (split; [first [reflexivity | exact T | exact N | exact B]|]). split; [exact Hb|].
  destruct (B (fun v => v) [] []) as (e & E & D). vm_compute in E. injection E as <-.
  assert (D' : match decode_axis plain_class (fun v => v) []
      (CAxis "time" [("standard_name", "time"); ("units", "days since 2000-01-01 00:00:00"); ("calendar", "standard"); ("axis", "T")]%string (Points KNamed [0 # 86400; 2678400 # 86400]%Q [])) with
     | Some (x, _) => match x_content x with Times t => t_mask t = six_fields /\ time_eq monthly t = false | _ => False end | None => False end) by (vm_compute; auto).
  rewrite D in D'. rewrite Hb in D'. exact D'.
Qed.
(** Reading files of others: a time zone is dropped without a word, a date without hyphens is taken for a year, and calendars that do not exist (any piece of
    the word none, such as "on" or an empty attribute) are taken for the calendar without years. *)
Theorem C49_foreign_text_refuted :
  read_units "hours since 2000-01-01 06:00 +06:00" = Some (Hours, mkdate 2000 1 1 6 0 0) /\
  read_units "hours since 2000-01-01 06:00:00 -03:00" = Some (Hours, mkdate 2000 1 1 6 0 0) /\
  read_units "days since 20000101" = Some (Days, mkdate 20000101 1 1 0 0 0) /\
  read_calendar "on" = Some Yearless /\ read_calendar "" = Some Yearless.
Proof. vm_compute. repeat split; reflexivity. Qed.

(** non-vacuity *)
Definition daily : taxis :=
  MkTime [1; 1] Std (mask_date six_fields (mkdate 1999 12 31 6 0 0)) Hours six_fields [mkdate 1999 12 28 18 30 0; mkdate 2000 2 28 23 59 59; mkdate 1850 1 1 0 0 0]
   [-214200 # 3600; 5162399 # 3600; -4733445600 # 3600]%Q.
Lemma daily_ok : time_axis plain_class daily (mkdate 1999 12 31 6 0 0).
Proof. constructor; try reflexivity; [split; discriminate|apply std_dates; reflexivity]. Qed.
Example C49_example :
  units_text Hours (t_start daily) = "hours since 1999-12-31 06:00:00"%string /\
  returns plain_class (CAxis "time" [("long_name", "valid time")]%string (Times daily)) daily /\
  reference "day since 0850-1-01T6:30" Days (mkdate 850 1 1 6 30 0).
Proof.
  split; [reflexivity|]. split.
  - apply (C49_six_fields plain_class (CAxis "time" [("long_name", "valid time")]%string (Times daily)) daily _ eq_refl daily_ok); [vm_compute; intuition discriminate|reflexivity|reflexivity|left; discriminate].
  - apply (ref_minute "day" Days "0850" "1" "01" "6" "30" 850 1 1 6 30 "T"); [constructor| | | | | |auto].
    + apply (numeral_more "085" 85 "0" 0%nat); [|reflexivity]. apply (numeral_more "08" 8 "5" 5%nat); [|reflexivity]. apply (numeral_more "0" 0 "8" 8%nat); [|reflexivity]. apply (numeral_one "0" 0%nat). reflexivity.
    + apply (numeral_one "1" 1%nat). reflexivity.
    + apply (numeral_more "0" 0 "1" 1%nat); [|reflexivity]. apply (numeral_one "0" 0%nat). reflexivity.
    + apply (numeral_one "6" 6%nat). reflexivity.
    + apply (numeral_more "3" 3 "0" 0%nat); [|reflexivity]. apply (numeral_one "3" 3%nat). reflexivity.
Qed.
Definition springs : taxis :=
  MkTime [1; 1] Std (mask_date five_fields (mkdate 0 1 1 0 0 0)) Days five_fields [mkdate 0 3 1 0 0 0; mkdate 0 5 15 12 0 0] [5184000 # 86400; 11707200 # 86400]%Q.
Definition counted : taxis :=
  MkTime [1; 4] Yearless (mask_date four_fields (mkdate 0 1 1 0 0 0)) Days four_fields [mkdate 0 1 400 0 0 0; mkdate 0 1 401 6 0 0] [34473600 # 86400; 34581600 # 86400]%Q.
Example C49_climatology_example :
  returns plain_class (CAxis "time" [] (Times springs)) springs /\ returns plain_class (CAxis "day" [] (Times counted)) counted.
Proof.
  split.
  - apply (C49_climatology plain_class (CAxis "time" [] (Times springs)) springs (mkdate 0 1 1 0 0 0) eq_refl); try reflexivity; [|vm_compute; intuition discriminate|discriminate].
    constructor; try reflexivity; [split; discriminate|apply std_dates; reflexivity].
  - apply (C49_yearless plain_class (CAxis "day" [] (Times counted)) counted (mkdate 0 1 1 0 0 0) eq_refl); try reflexivity; [|vm_compute; intuition discriminate].
    constructor; try reflexivity; [split; reflexivity|]. repeat constructor; vm_compute; intuition congruence.
Qed.
Print Assumptions C49_stable.
(** A reference date that does not begin with a digit is refused. *)
Theorem C49_no_number : forall r u c t, names_unit r u -> every is_dot (String c t) = true -> is_space c = false -> is_digit c = false ->
  read_units (r ++ " since " ++ String c t)%string = None.
Proof.
  intros r u c t N P S D. destruct (match_since_of r u (String c t) N S P) as [E _]. unfold read_units. rewrite E. cbn [bind].
  assert (R : exists t', rstrip (String c t) = String c t') by (cbn [rstrip]; rewrite S; destruct (rstrip t); eauto). destruct R as (t' & R). unfold read_date. rewrite R.
  unfold field. cbn [String.eqb]. unfold match_number. cbn [span]. rewrite D. reflexivity.
Qed.
Print Assumptions C49_no_number.
Example C49_no_number_example : names_unit "days" Days /\ every is_dot "-5-01-01" = true /\ read_units "days since -5-01-01" = None.
Proof. split; [constructor|]. split; reflexivity. Qed.
