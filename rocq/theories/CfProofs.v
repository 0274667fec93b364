(** A time axis, written and read again. *)
From Coq Require Import ZArith List Bool QArith_base Ascii String Lia.
From Verif Require Import CalModel CalSpec CalProofs CalPyProofs TimeSearchModel TimeDateProofs IndexModel ViewModel AxisModel ClimModel ClimAxis StencilModel CfModel CfSpec CfText.
Import ListNotations.
Open Scope Z_scope.

(** *** dictionaries *)
Lemma lookup_put_same {A} k (v : A) d : lookup k (put k v d) = Some v.
Proof. induction d as [|[x w] d IH]; cbn; [rewrite String.eqb_refl; reflexivity|]. destruct (String.eqb k x) eqn:E; cbn; rewrite E; auto. Qed.
Lemma lookup_put_other {A} k j (v : A) d : String.eqb j k = false -> lookup j (put k v d) = lookup j d.
Proof.
  intros H. induction d as [|[x w] d IH]; cbn; [rewrite H; reflexivity|]. destruct (String.eqb k x) eqn:E; cbn.
  - apply String.eqb_eq in E. subst x. rewrite H. reflexivity.
  - destruct (String.eqb j x); auto.
Qed.
Lemma lookup_drop_same {A} k (d : list (string * A)) : lookup k (drop k d) = None.
Proof. induction d as [|[x w] d IH]; cbn; auto. destruct (String.eqb k x) eqn:E; cbn; auto. rewrite E. auto. Qed.
Lemma lookup_drop_other {A} k j (d : list (string * A)) : String.eqb j k = false -> lookup j (drop k d) = lookup j d.
Proof.
  intros H. induction d as [|[x w] d IH]; cbn; auto. destruct (String.eqb k x) eqn:E; cbn.
  - apply String.eqb_eq in E. subst x. rewrite H. auto.
  - destruct (String.eqb j x); auto.
Qed.
(** [lookup] in a dictionary that was built with [put] and [drop] *)
Ltac looked := repeat first
  [ rewrite lookup_put_same | rewrite lookup_drop_same
  | rewrite lookup_put_other by (first [reflexivity | assumption]) | rewrite lookup_drop_other by (first [reflexivity | assumption]) ].

(** *** dates *)
Lemma get_all d : get_dates (mask_date all_fields d) = d.
Proof. destruct d; reflexivity. Qed.
Lemma full_all d : mask_date all_fields d = CalSpec.full d.
Proof. destruct d; reflexivity. Qed.
Lemma sequence_values {A B} (f : A -> option B) l r : map f l = map Some r -> sequence (map f l) = Some r.
Proof.
  revert r. induction l as [|x l IH]; intros [|y r]; cbn; try discriminate; auto.
  intros [= H1 H2]. rewrite H1. rewrite (IH r H2). reflexivity.
Qed.

Section OneAxis.
Context (tcls : cal -> class).

Lemma one_value c p u k d v : good_start c (get_dates p) -> valid_date c d -> axis_value c p u k d = Some v ->
  val_as_date c (mask_date all_fields (get_dates p)) u false v = Some (CalSpec.full (get_dates (mask_date k d))) /\
  axis_value c (mask_date all_fields (get_dates p)) u all_fields (get_dates (mask_date k d)) = Some v.
Proof.
  intros G V E. assert (W := masked_valid c k d V). set (e := get_dates (mask_date k d)) in *.
  assert (G' : good_start c (get_dates (mask_date all_fields (get_dates p)))) by (rewrite get_all; exact G).
  destruct (py_date_val_date c (mask_date all_fields (get_dates p)) u e G' W) as (q & Q1 & Q2).
  assert (Ev : axis_value c (mask_date all_fields (get_dates p)) u all_fields e = Some v).
  { rewrite <- E. unfold axis_value, date_as_val. rewrite !get_all. reflexivity. }
  split; [|exact Ev].
  unfold axis_value in Ev. rewrite (full_all e) in Ev. rewrite Ev in Q1. injection Q1 as <-.
  unfold val_as_date in *. destruct (c_val_as_date _ _ _) as [x|]; [|discriminate]. exact Q2.
Qed.

Lemma read_values t start : time_axis tcls t start ->
  time_of_values tcls (t_cal t) (get_dates (t_start t)) (t_units t) (t_vals t) =
  Some (MkTime (tcls (t_cal t)) (t_cal t) (mask_date all_fields (get_dates (t_start t))) (t_units t) all_fields (instants t) (t_vals t)).
Proof.
  intros [_ _ G V E]. unfold time_of_values, instants.
  assert (H : map (val_as_date (t_cal t) (mask_date all_fields (get_dates (t_start t))) (t_units t) false) (t_vals t) =
              map Some (map (fun d => CalSpec.full (get_dates (mask_date (t_mask t) d))) (t_dates t)) /\
              map (axis_value (t_cal t) (mask_date all_fields (get_dates (t_start t))) (t_units t) all_fields) (map (fun d => get_dates (mask_date (t_mask t) d)) (t_dates t)) =
              map Some (t_vals t)).
  { revert V E. generalize (t_vals t) as vs, (t_dates t) as ds. intros vs ds. revert vs.
    induction ds as [|d ds IH]; intros [|v vs] V E; cbn [map] in *; try discriminate; auto.
    inversion V as [|? ? V1 V2]; subst. injection E as E1 E2.
    destruct (one_value _ _ _ _ _ _ G V1 E1) as (A & B). destruct (IH vs V2 E2) as (C & D). rewrite A, B, C, D. auto. }
  destruct H as (H1 & H2). rewrite (sequence_values _ _ _ H1). cbn [bind].
  replace (map get_dates (map (fun d => CalSpec.full (get_dates (mask_date (t_mask t) d))) (t_dates t))) with (map (fun d => get_dates (mask_date (t_mask t) d)) (t_dates t)).
  2:{ rewrite map_map. apply map_ext. intros d. destruct (get_dates (mask_date (t_mask t) d)); reflexivity. }
  rewrite (sequence_values _ _ _ H2). reflexivity.
Qed.

(** the fields of an axis that has lost its years *)
Definition late_mask (c : cal) : mask := match c with Yearless => mkmask false false true true true true | _ => no_year end.
Lemma late_start c s : good_start c s -> year s = 0 -> start_of c (late_mask c) (mask_date all_fields s) = mask_date (late_mask c) s.
Proof. intros _ _. destruct c, s; reflexivity. Qed.
Lemma late_get c s : (c = Yearless -> month s = 1) -> year s = 0 -> get_dates (mask_date (late_mask c) s) = s.
Proof. intros H Y. destruct s as [y m d h mi sc]. cbn in *. subst y. destruct c; cbn; rewrite ?(H eq_refl); reflexivity. Qed.

Lemma read_time t start : time_axis tcls t start -> nonnegative (get_dates (t_start t)) ->
  exists t', decode_time tcls (t_cal t) (units_text (t_units t) (t_start t)) (t_vals t) = Some t' /\
    t_class t' = t_class t /\ t_cal t' = t_cal t /\ t_units t' = t_units t /\ get_dates (t_start t') = get_dates (t_start t) /\
    t_start t' = mask_date (t_mask t') (get_dates (t_start t)) /\ t_dates t' = instants t /\ t_vals t' = t_vals t /\
    map (axis_value (t_cal t') (t_start t') (t_units t') (t_mask t')) (t_dates t') = map Some (t_vals t') /\
    ((year (get_dates (t_start t)) = 0 /\ Forall (fun d => year d = 0) (instants t) /\ t_mask t' = late_mask (t_cal t)) \/
     (~ (year (get_dates (t_start t)) = 0 /\ Forall (fun d => year d = 0) (instants t)) /\ t_mask t' = all_fields)).
Proof.
  intros T N. unfold decode_time. rewrite (read_reference _ _ _ (units_reference (t_units t) (t_start t) N)). cbn [bind].
  rewrite (read_values t start T). cbn [bind t_dates].
  destruct T as [C S G V E]. set (s := get_dates (t_start t)) in *.
  destruct ((year s =? 0) && forallb (fun d => year d =? 0) (instants t)) eqn:B.
  - apply andb_true_iff in B. destruct B as [B1 B2]. apply Z.eqb_eq in B1.
    assert (F : Forall (fun d => year d = 0) (instants t)).
    { apply Forall_forall. intros d Hd. rewrite forallb_forall in B2. apply Z.eqb_eq, B2, Hd. }
    unfold without_year. cbn [t_cal t_start t_units t_dates t_class].
    change (match t_cal t with Yearless => mkmask false false true true true true | _ => no_year end) with (late_mask (t_cal t)).
    rewrite (late_start _ _ G B1).
    assert (Gs : get_dates (mask_date (late_mask (t_cal t)) s) = s).
    { apply late_get; auto. intros K. rewrite K in G. apply G. }
    assert (Q : map (axis_value (t_cal t) (mask_date (late_mask (t_cal t)) s) (t_units t) (late_mask (t_cal t))) (instants t) = map Some (t_vals t)).
    2:{ rewrite (sequence_values _ _ _ Q). cbn [bind]. eexists; split; [reflexivity|]. cbn [t_class t_cal t_units t_start t_dates t_vals t_mask]. repeat split; auto. }
    { assert (R := ta_vals tcls t start (TimeAxis tcls t start C S G V E)). rewrite <- R.
      unfold instants. rewrite map_map. apply map_ext_in. intros d Hd. unfold axis_value, date_as_val. rewrite Gs.
      rewrite late_get; auto.
      * intros K. rewrite Forall_forall in V. assert (W := masked_valid _ (t_mask t) d (V d Hd)). rewrite K in W. apply W.
      * rewrite Forall_forall in F. apply F. apply in_map_iff. eauto. }
  - eexists; split; [reflexivity|]. cbn [t_class t_cal t_units t_start t_dates t_vals t_mask]. rewrite get_all. do 7 (split; [auto|]). split.
    { rewrite <- E. unfold instants. rewrite map_map. apply map_ext_in. intros d Hd.
      assert (X : exists v, axis_value (t_cal t) (t_start t) (t_units t) (t_mask t) d = Some v).
      { assert (Y : In (axis_value (t_cal t) (t_start t) (t_units t) (t_mask t) d) (map Some (t_vals t))) by (rewrite <- E; apply in_map; exact Hd).
        apply in_map_iff in Y. destruct Y as (v & Y & _). exists v. auto. }
      destruct X as (v & X). rewrite X. rewrite Forall_forall in V. apply (one_value _ _ _ _ _ _ G (V d Hd) X). }
    right. split; auto. intros (B1 & B2). apply andb_false_iff in B. destruct B as [B|B]; [apply Z.eqb_neq in B; congruence|].
    assert (X : forallb (fun d => year d =? 0) (instants t) = true) by (apply forallb_forall; intros d Hd; rewrite Forall_forall in B2; apply Z.eqb_eq, B2, Hd).
    congruence.
Qed.

(** *** the whole axis *)
Lemma units_not u tail s : In s ["degrees_north"; "degrees_east"; "hPa"; "mbar"]%string -> String.eqb (unit_name u ++ tail) s = false.
Proof. intros [<-|[<-|[<-|[<-|[]]]]]; destruct u; reflexivity. Qed.
Lemma units_since u tail : contains " since " (unit_name u ++ " since " ++ tail) = true.
Proof. destruct u; reflexivity. Qed.

Lemma axis_round_trip cosines others vars a t start : x_content a = Times t -> time_axis tcls t start -> nonnegative (get_dates (t_start t)) ->
  lookup "ancillary_variables" (x_atts a) = None ->
  exists b atts t', encode_axis others a = Some (b, []) /\
    decode_axis tcls cosines vars b = Some (CAxis (x_name a) atts (Times t'), []) /\
    decode_time tcls (t_cal t) (units_text (t_units t) (t_start t)) (t_vals t) = Some t' /\
    (lookup "standard_name" atts = Some "time"%string /\ (forall k, In k ["axis"; "units"; "calendar"]%string -> lookup k atts = None) /\
     forall k, ~ In k ["standard_name"; "axis"; "units"; "calendar"]%string -> lookup k atts = lookup k (x_atts a)).
Proof.
  intros Hc T N Ha. destruct (read_time t start T N) as (t' & D & _).
  destruct a as [name atts0 ct]. cbn [x_content x_atts x_name] in *. subst ct.
  unfold encode_axis. cbn [x_content x_name x_atts]. rewrite (sequence_values _ _ _ (ta_vals _ _ _ T)). cbn [bind].
  set (atts1 := put "axis" "T"%string (put "calendar" (cal_name (t_cal t)) (put "units" (units_text (t_units t) (t_start t)) (put "standard_name" "time"%string atts0)))).
  assert (L1 : lookup "ancillary_variables" atts1 = None) by (unfold atts1; looked; exact Ha).
  assert (L2 : lookup "axis" (drop "ancillary_variables" atts1) = Some "T"%string) by (unfold atts1; looked; reflexivity).
  assert (L3 : lookup "standard_name" (drop "axis" (drop "ancillary_variables" atts1)) = Some "time"%string) by (unfold atts1; looked; reflexivity).
  assert (L4 : lookup "units" (drop "axis" (drop "ancillary_variables" atts1)) = Some (units_text (t_units t) (t_start t))) by (unfold atts1; looked; reflexivity).
  assert (L5 : lookup "calendar" (drop "units" (drop "axis" (drop "ancillary_variables" atts1))) = Some (cal_name (t_cal t))) by (unfold atts1; looked; reflexivity).
  eexists _, _, t'. split; [reflexivity|]. split; [|split; [exact D|]].
  - unfold decode_axis. cbn [x_content x_name x_atts]. rewrite L1. cbn [bind]. unfold dget. rewrite L2, L3, L4.
    unfold units_text in D |- *.
    match goal with |- context [(unit_name ?u ++ " since " ++ ?w)%string] => remember w as tail end.
    unfold starts_air. rewrite !units_not by (cbn; tauto).
    change (first_kind (Some "T"%string) KNamed) with KT.
    change (lower "time") with "time"%string. change (String.eqb "time" "latitude") with false. change (String.eqb "time" "longitude") with false.
    change (String.eqb "time" "air_pressure") with false. change (String.eqb "time" "atmosphere_hybrid_sigma_pressure_coordinate") with false.
    change (String.eqb "time" "station") with false. cbn [orb andb].
    unfold since. change (String.eqb "time" "time") with true. cbn [orb andb]. rewrite units_since. rewrite L5.
    rewrite (read_calendar_name _ _ (written_calendar (t_cal t))). rewrite D. reflexivity.
  - split; [unfold atts1; looked; reflexivity|]. split.
    + intros k [<-|[<-|[<-|[]]]]; unfold atts1; looked; reflexivity.
    + intros k Hk. assert (E1 : forall j, In j ["standard_name"; "axis"; "units"; "calendar"]%string -> String.eqb k j = false).
      { intros j Hj. apply String.eqb_neq. intros ->. auto. }
      assert (X1 := E1 "standard_name"%string ltac:(cbn; tauto)). assert (X2 := E1 "axis"%string ltac:(cbn; tauto)).
      assert (X3 := E1 "units"%string ltac:(cbn; tauto)). assert (X4 := E1 "calendar"%string ltac:(cbn; tauto)).
      rewrite !lookup_drop_other by assumption. destruct (String.eqb k "ancillary_variables") eqn:K.
      * apply String.eqb_eq in K. subst k. rewrite lookup_drop_same. auto.
      * rewrite lookup_drop_other by assumption. unfold atts1. looked. reflexivity.
Qed.
End OneAxis.
