(** Dates as text: C60. *)
From Coq Require Import ZArith List Bool QArith QArith_base Qround Ascii String Lia Lqa.
From Verif Require Import CalModel CalSpec CalPyProofs CalProps TimeSearchModel IndexModel AxisModel StencilModel CfModel CfSpec CfText CfProofs DateTextModel DateTextSpec DateTextProofs.
Import ListNotations.
Local Open Scope string_scope.
Open Scope Z_scope.

Lemma int_num s n : numeral s n -> int_of s = n.
Proof. intros H. now apply numeral_spec in H as (_ & _ & H & _). Qed.
Lemma month_found ms m : names_month ms m -> place_of (lower ms) (map lower months) = Some m.
Proof. intros (t & Ht & Hms). rewrite (same_lower _ _ Hms). now apply month_place. Qed.

(** C60: "12 Dec 2008" is the 12th of December 2008, in upper or lower case, whatever follows the year. *)
Theorem C60_day : forall c ds ms ys d m y rest, c <> Yearless -> day_text ds ms ys d m y -> no_digit_first rest ->
  str_as_date c (ds ++ " " ++ ms ++ " " ++ ys ++ rest) = Some (mkpdate (Some y) (Some m) (Some d) None None None).
Proof.
  intros c ds ms ys d m y rest Hc Hday Hr. unfold str_as_date. rewrite (search_day c ds ms ys d m y rest Hc Hday Hr). cbn [bind].
  destruct Hday as (Hd & _ & Hm & Hy). rewrite (month_found _ _ Hm). cbn [bind option_map]. now rewrite (int_num _ _ Hd), (int_num _ _ Hy).
Qed.
Print Assumptions C60_day.

(** C60: hours and minutes before the date. *)
Theorem C60_clock : forall c hs mis h mi b ds ms ys d m y rest, c <> Yearless -> clock_text hs mis h mi -> blank b -> day_text ds ms ys d m y -> no_digit_first rest ->
  str_as_date c (hs ++ ":" ++ mis ++ String b (ds ++ " " ++ ms ++ " " ++ ys ++ rest)) = Some (mkpdate (Some y) (Some m) (Some d) (Some h) (Some mi) None).
Proof.
  intros c hs mis h mi b ds ms ys d m y rest Hc Hcl Hb Hday Hr. unfold str_as_date. rewrite (search_clock c true hs mis h mi b ds ms ys d m y rest Hc Hcl Hb Hday Hr). cbn [bind].
  destruct Hday as (Hd & _ & Hm & Hy). destruct Hcl as (Hh & _ & Hmi & _). rewrite (month_found _ _ Hm). cbn [bind option_map].
  now rewrite (int_num _ _ Hd), (int_num _ _ Hy), (int_num _ _ Hh), (int_num _ _ Hmi).
Qed.
Print Assumptions C60_clock.

(** C60: every text that is accepted contains a date of this form, with the fields of the result, and nothing else determines the result. *)
Theorem C60_accepted : forall c s p, c <> Yearless -> str_as_date c s = Some p ->
  exists front ds ms ys rest d m y, s = front ++ ds ++ " " ++ ms ++ " " ++ ys ++ rest /\
    numeral ds d /\ (String.length ds <= 2)%nat /\ numeral ys y /\ (names_month ms m \/ m = 0 /\ same_letters ms "Smarch") /\
    pyear p = Some y /\ pmonth p = Some m /\ pday p = Some d /\ clock_before front (phour p) (pminute p) (psecond p).
Proof.
  intros c s p Hc H. unfold str_as_date in H. destruct (search c true s) as [[[[h mi] sec] g]|] eqn:E; [|discriminate]. cbn [bind] in H.
  destruct (search_sound c true s _ g Hc E) as (front & ds & ms & ys & rest & -> & -> & Dd & Ld & Am & Dy & Ny & B & _).
  destruct (place_of (lower ms) (map lower months)) as [m|] eqn:Em; [|discriminate]. cbn [bind] in H. injection H as <-. cbn [pyear pmonth pday phour pminute psecond].
  exists front, ds, ms, ys, rest, (int_of ds), m, (int_of ys). split; [reflexivity|].
  split. { apply int_numeral; [exact Dd|]. destruct ds; [cbn in Ld; lia | discriminate]. }
  split; [lia|]. split; [now apply int_numeral|]. split; [now apply place_month|]. do 3 (split; [reflexivity|]).
  destruct B as [[B1 B2]|(f & hs & mis & Q1 & Q2 & Q3 & Q4 & Q5)].
  - injection B2 as -> -> ->. left. auto.
  - right. exists f, hs, mis, (int_of hs), (int_of mis).
    assert (Nh : numeral hs (int_of hs)) by (apply int_numeral; [exact Q1|]; destruct hs; [cbn in Q2; lia | discriminate]).
    assert (Nm : numeral mis (int_of mis)) by (apply int_numeral; [exact Q3|]; destruct mis; [cbn in Q4; lia | discriminate]).
    split; [repeat split; auto; lia|]. destruct Q5 as [(b & B1 & B2 & B3)|(ss & B1 & B2 & B3 & B4)].
    + injection B2 as -> -> ->. do 2 (split; [reflexivity|]). left. exists b. auto.
    + injection B3 as -> -> ->. do 2 (split; [reflexivity|]). right. exists ss, (int_of ss). split; [|auto].
      apply int_numeral; [exact B1|]. destruct ss; [cbn in B2; lia | discriminate].
Qed.
Print Assumptions C60_accepted.

(** C60, refuted: a date with hours, minutes and seconds, as in the documentation, is read with the minutes as hours and the seconds as minutes. *)
Theorem C60_seconds_refuted : forall c hs mis ss h mi s b ds ms ys d m y rest, c <> Yearless -> clock_text hs mis h mi -> numeral ss s -> String.length ss = 2%nat -> blank b ->
  day_text ds ms ys d m y -> no_digit_first rest ->
  str_as_date c (hs ++ ":" ++ mis ++ ":" ++ ss ++ String b (ds ++ " " ++ ms ++ " " ++ ys ++ rest)) = Some (mkpdate (Some y) (Some m) (Some d) (Some mi) (Some s) None).
Proof.
  intros c hs mis ss h mi s b ds ms ys d m y rest Hc Hcl Hs Ls Hb Hday Hr. unfold str_as_date. rewrite (search_seconds c hs mis ss h mi s b ds ms ys d m y rest Hc Hcl Hs Ls Hb Hday Hr). cbn [bind].
  destruct Hday as (Hd & _ & Hm & Hy). destruct Hcl as (_ & _ & Hmi & _). rewrite (month_found _ _ Hm). cbn [bind option_map].
  now rewrite (int_num _ _ Hd), (int_num _ _ Hy), (int_num _ _ Hmi), (int_num _ _ Hs).
Qed.
Print Assumptions C60_seconds_refuted.

(** ** texts that are refused *)
(** a state machine that looks for a digit, a blank and a letter *)
Definition step (st : nat) (a : ascii) : nat :=
  match st with
  | 3%nat => 3%nat
  | _ => if is_digit a then 1%nat else if Ascii.eqb a " " then (if Nat.eqb st 1 then 2%nat else 0%nat) else if Nat.eqb st 2 && is_alpha a then 3%nat else 0%nat
  end.
Fixpoint run (st : nat) (s : string) : nat := match s with EmptyString => st | String a r => run (step st a) r end.
Lemma run_app s t st : run st (s ++ t) = run (run st s) t.
Proof. revert st. induction s as [|a s IH]; intros st; cbn; [reflexivity | apply IH]. Qed.
Lemma run_3 s : run 3 s = 3%nat.
Proof. induction s; cbn; auto. Qed.
Lemma run_digits s st : every is_digit s = true -> s <> "" -> st <> 3%nat -> run st s = 1%nat.
Proof.
  revert st. induction s as [|a s IH]; intros st H N S; [congruence|]. cbn in H. apply andb_prop in H as [Ha H]. cbn [run].
  assert (E : step st a = 1%nat) by (unfold step; rewrite Ha; destruct st as [|[|[|[|]]]]; congruence). rewrite E.
  destruct s; [reflexivity|]. apply IH; [exact H | discriminate | discriminate].
Qed.
Lemma run_accepted ds ms rest st : every is_digit ds = true -> ds <> "" -> every is_alpha ms = true -> ms <> "" -> run st (ds ++ " " ++ ms ++ rest) = 3%nat.
Proof.
  intros Dd Nd Am Nm. destruct (Nat.eq_dec st 3) as [->|N]; [apply run_3|].
  rewrite run_app. rewrite (run_digits ds st) by assumption. destruct ms as [|a ms]; [congruence|]. cbn in Am. apply andb_prop in Am as [Aa _].
  cbn [append run]. change (step 1 " ") with 2%nat.
  assert (E : step 2 a = 3%nat).
  { unfold step. destruct (is_digit a) eqn:Ea.
    - exfalso. unfold is_digit, is_alpha, between in *. destruct (Z.leb_spec 48 (code a)), (Z.leb_spec (code a) 57), (Z.leb_spec 97 (code a)), (Z.leb_spec (code a) 122), (Z.leb_spec 65 (code a)), (Z.leb_spec (code a) 90); cbn in *; try discriminate; lia.
    - destruct (Ascii.eqb_spec a " ") as [->|_]; [vm_compute in Aa; discriminate|]. now rewrite Aa. }
  rewrite E. apply run_3.
Qed.
Lemma accepted_run c s p : c <> Yearless -> str_as_date c s = Some p -> run 0 s = 3%nat.
Proof.
  intros Hc H. unfold str_as_date in H. destruct (search c true s) as [[k g]|] eqn:E; [|discriminate]. cbn [bind] in H.
  destruct (search_sound c true s _ g Hc E) as (front & ds & ms & ys & rest & -> & -> & Dd & Ld & Am & Dy & Ny & B & _).
  rewrite run_app. apply run_accepted; auto.
  - destruct ds; [cbn in Ld; lia | discriminate].
  - intros ->. destruct k as [[? ?] ?]. vm_compute in H. discriminate.
Qed.
Lemma run_no_blank s : (forall f t, s <> f ++ String " " t) -> forall st, (st < 2)%nat -> run st s <> 3%nat.
Proof.
  induction s as [|a s IH]; intros H st Hst; cbn; [lia|].
  assert (Na : a <> " "%char) by (intros ->; now apply (H "" s)).
  apply IH; [intros f t ->; now apply (H (String a f) t)|].
  destruct st as [|[|]]; [| |lia]; unfold step; destruct (is_digit a); try lia; destruct (Ascii.eqb_spec a " "); try congruence; cbn; lia.
Qed.
(** C60, refuted: a text without blanks is refused, so no date in the format of ISO 8601 ("2000-01-01", "2000-01-01T06:30:00") is read, although the documentation says so. *)
Theorem C60_iso_refuted : forall c s, c <> Yearless -> (forall f t, s <> f ++ String " " t) -> str_as_date c s = None.
Proof.
  intros c s Hc H. destruct (str_as_date c s) as [p|] eqn:E; [|reflexivity]. exfalso.
  apply (accepted_run c s p Hc) in E. revert E. apply run_no_blank; [exact H | lia].
Qed.
Print Assumptions C60_iso_refuted.

(** ** writing *)
Lemma full_pdate s : s = CalSpec.full (get_dates s) -> exists y m d h mi sec, s = mkpdate (Some y) (Some m) (Some d) (Some h) (Some mi) (Some sec).
Proof. intros ->. unfold CalSpec.full. eauto 7. Qed.
Lemma val_full c s u q b : s = CalSpec.full (get_dates s) -> val_as_date c s u b q = val_as_date c s u true q.
Proof. intros H. destruct (full_pdate s H) as (y & m & d & h & mi & sec & ->). unfold val_as_date. destruct b; reflexivity. Qed.
Lemma valid_fields c d : c <> Yearless -> valid_date c d -> 1 <= month d <= 12 /\ 1 <= day d <= 31 /\ 0 <= hour d < 24 /\ 0 <= minute d < 60 /\ 0 <= second d < 60.
Proof.
  intros Hc [(H1 & H2 & H3) H4]. assert (K : exists n, month_length c (year d) (month d) n /\ 1 <= day d <= n) by (destruct c; try congruence; exact H4).
  destruct K as (n & L & D). inversion L; subst; lia.
Qed.
Lemma month_text m : 1 <= m <= 12 -> exists t, nth_error months (Z.to_nat m) = Some t /\ month_name m t.
Proof.
  intros H. destruct (nth_error months (Z.to_nat m)) as [t|] eqn:E.
  - exists t. split; [reflexivity|]. split; [lia|]. replace (Z.to_nat m) with (S (Z.to_nat (m - 1))) in E by lia. exact E.
  - apply nth_error_None in E. change (List.length months) with 13%nat in E. lia.
Qed.
Lemma dec_length f n : 0 <= n < 100 -> (String.length (dec f n) <= 2)%nat.
Proof.
  intros H. destruct f as [|f]; cbn [dec]; [cbn; lia|]. destruct (Z.ltb_spec n 10); [cbn; lia|].
  destruct f as [|f]; cbn [dec]; [cbn; lia|]. assert (n / 10 < 10) by (apply Z.div_lt_upper_bound; lia).
  destruct (Z.ltb_spec (n / 10) 10); [cbn; lia | lia].
Qed.
Lemma fmt0_length n : 0 <= n < 100 -> (String.length (fmt 0 n) <= 2)%nat.
Proof. intros H. unfold fmt. destruct (Z.ltb_spec n 0); [lia|]. unfold pad. cbn [Nat.sub zeros append]. now apply dec_length. Qed.
Lemma zeros_length n : String.length (zeros n) = n.
Proof. induction n; cbn; auto. Qed.
Lemma length_app s t : String.length (s ++ t) = (String.length s + String.length t)%nat.
Proof. induction s; cbn; auto. Qed.
Lemma fmt2_length n : 0 <= n < 100 -> String.length (fmt 2 n) = 2%nat.
Proof.
  intros H. unfold fmt. destruct (Z.ltb_spec n 0); [lia|]. unfold pad. rewrite length_app, zeros_length.
  assert (String.length (decimal n) <= 2)%nat by (now apply dec_length). lia.
Qed.
Lemma written_day d t : 1 <= month d <= 12 -> 1 <= day d <= 31 -> 0 <= year d -> month_name (month d) t ->
  day_text (fmt 0 (day d)) t (fmt 0 (year d)) (day d) (month d) (year d).
Proof.
  intros Hm Hd Hy Ht. split; [apply fmt_numeral; lia|]. split; [apply fmt0_length; lia|]. split; [|apply fmt_numeral; lia].
  exists t. split; [exact Ht|]. clear. unfold same_letters. induction (list_ascii_of_string t); constructor; [left; reflexivity | assumption].
Qed.
Lemma nothing_after : no_digit_first "".
Proof. intros n r t H E. apply numeral_spec in H as (_ & H & _). destruct n; [congruence | discriminate E]. Qed.

(** C60: a value written as day, month and year is read as the date of that value, if the year is 100 or later. *)
Theorem C60_day_round_trip : forall c s u v, c <> Yearless -> s = CalSpec.full (get_dates s) -> good_start c (get_dates s) ->
  exists d, val_as_date c s u true v = Some (CalSpec.full d) /\ (100 <= year d ->
    exists text, formatvalue c s u v "$d $b $Y" = Some text /\
      str_as_date c text = Some (mkpdate (Some (year d)) (Some (month d)) (Some (day d)) None None None)).
Proof.
  intros c s u v Hc Hf Hs. destruct (C01_with_units c s u v Hs) as (d & q & H1 & Hv & _). exists d. split; [exact H1|]. intros Hy.
  destruct (valid_fields c d Hc Hv) as (Bm & Bd & _). destruct (month_text _ Bm) as (t & Et & Ht).
  exists (fmt 0 (day d) ++ " " ++ t ++ " " ++ fmt 0 (year d) ++ ""). split.
  - unfold formatvalue. rewrite (val_full c s u v false Hf), H1. cbn [bind].
    assert (S1 : subs (CalSpec.full d) "d" = Some (fmt 0 (day d))) by reflexivity.
    assert (S2 : subs (CalSpec.full d) "b" = Some t) by exact Et.
    assert (S3 : subs (CalSpec.full d) "Y" = Some (fmt 0 (year d))).
    { unfold subs. cbn [String.eqb Ascii.eqb Bool.eqb]. unfold opt. cbn [pyear CalSpec.full]. destruct (Z.ltb_spec (Z.abs (year d)) 100); [lia | reflexivity]. }
    revert S1 S2 S3. generalize (subs (CalSpec.full d)). intros f S1 S2 S3. cbn. rewrite S1. cbn. rewrite S2. cbn. rewrite S3. cbn. reflexivity.
  - apply C60_day; [exact Hc | apply written_day; auto; lia | exact nothing_after].
Qed.
Print Assumptions C60_day_round_trip.

Lemma template_plain sub f : (forall g t, f <> g ++ String "$" t) -> forall n, (String.length f < n)%nat -> template n sub f = Some f.
Proof.
  induction f as [|a r IH]; intros H n Hn; (destruct n as [|n]; [cbn in Hn; lia|]); cbn [template]; [reflexivity|].
  destruct (Ascii.eqb a "$") eqn:E; [exfalso; apply Ascii.eqb_eq in E; subst a; exact (H "" r eq_refl)|].
  rewrite IH; [reflexivity | | cbn in Hn; lia]. intros g t ->. exact (H (String a g) t eq_refl).
Qed.
(** C60: a format without directives is written as it is. *)
Theorem C60_plain : forall c s u v f, c <> Yearless -> s = CalSpec.full (get_dates s) -> good_start c (get_dates s) -> (forall g t, f <> g ++ String "$" t) ->
  formatvalue c s u v f = Some f.
Proof.
  intros c s u v f Hc Hf Hs H. destruct (C01_with_units c s u v Hs) as (d & q & H1 & Hv & _). unfold formatvalue. rewrite (val_full c s u v false Hf), H1. cbn [bind].
  apply template_plain; [exact H | lia].
Qed.
Print Assumptions C60_plain.

(** C60: with hours and minutes; then a value on a whole minute is read as that value. *)
Theorem C60_round_trip : forall c s u v, c <> Yearless -> s = CalSpec.full (get_dates s) -> good_start c (get_dates s) ->
  exists d, val_as_date c s u true v = Some (CalSpec.full d) /\ (100 <= year d ->
    exists text, formatvalue c s u v "$H:$M $d $b $Y" = Some text /\
      str_as_date c text = Some (mkpdate (Some (year d)) (Some (month d)) (Some (day d)) (Some (hour d)) (Some (minute d)) None) /\
      exists w, str_as_val c s u text = Some w /\
        (forall n, second d = 0 -> (v * inject_Z (seconds_in u) == inject_Z n)%Q -> (w == v)%Q)).
Proof.
  intros c s u v Hc Hf Hs. destruct (C01_with_units c s u v Hs) as (d & q & H1 & Hv & Hq & _ & Hex). exists d. split; [exact H1|]. intros Hy.
  destruct (valid_fields c d Hc Hv) as (Bm & Bd & Bh & Bmi & _). destruct (month_text _ Bm) as (t & Et & Ht).
  exists (fmt 2 (hour d) ++ ":" ++ fmt 2 (minute d) ++ String " " (fmt 0 (day d) ++ " " ++ t ++ " " ++ fmt 0 (year d) ++ "")).
  assert (R : str_as_date c (fmt 2 (hour d) ++ ":" ++ fmt 2 (minute d) ++ String " " (fmt 0 (day d) ++ " " ++ t ++ " " ++ fmt 0 (year d) ++ "")) =
    Some (mkpdate (Some (year d)) (Some (month d)) (Some (day d)) (Some (hour d)) (Some (minute d)) None)).
  { apply C60_clock; [exact Hc | | unfold blank; cbn; lia | apply written_day; auto; lia | exact nothing_after].
    repeat split; [apply fmt_numeral; lia | rewrite fmt2_length by lia; lia | apply fmt_numeral; lia | apply fmt2_length; lia]. }
  split; [|split; [exact R|]].
  - unfold formatvalue. rewrite (val_full c s u v false Hf), H1. cbn [bind].
    assert (S1 : subs (CalSpec.full d) "d" = Some (fmt 0 (day d))) by reflexivity.
    assert (S2 : subs (CalSpec.full d) "b" = Some t) by exact Et.
    assert (S3 : subs (CalSpec.full d) "Y" = Some (fmt 0 (year d))).
    { unfold subs. cbn [String.eqb Ascii.eqb Bool.eqb]. unfold opt. cbn [pyear CalSpec.full]. destruct (Z.ltb_spec (Z.abs (year d)) 100); [lia | reflexivity]. }
    assert (S4 : subs (CalSpec.full d) "H" = Some (fmt 2 (hour d))) by reflexivity.
    assert (S5 : subs (CalSpec.full d) "M" = Some (fmt 2 (minute d))) by reflexivity.
    revert S1 S2 S3 S4 S5. generalize (subs (CalSpec.full d)). intros f S1 S2 S3 S4 S5. cbn. rewrite S4. cbn. rewrite S5. cbn. rewrite S1. cbn. rewrite S2. cbn. rewrite S3. cbn. reflexivity.
  - unfold str_as_val. rewrite R. cbn [bind].
    set (w := mkpdate (Some (year d)) (Some (month d)) (Some (day d)) (Some (hour d)) (Some (minute d)) None).
    assert (G : CalSpec.good_any c (get_dates w)) by (destruct c; try exact I; congruence).
    destruct (C07_wrapdate c s u w Hs G) as (_ & r & _ & _ & Hr & _). exists r. split; [exact Hr|]. intros n Hsec Hn.
    assert (E : get_dates w = get_dates (CalSpec.full d)) by (unfold w, get_dates, CalSpec.full; cbn; now rewrite Hsec).
    unfold date_as_val in Hr, Hq. rewrite E in Hr. rewrite Hr in Hq. assert (r = q) by congruence. subst r. apply (Hex n Hn).
Qed.
Print Assumptions C60_round_trip.

(** C60, refuted: what is written in the default format is never read. *)
Lemma run_alpha s st : every is_alpha s = true -> (st = 0 \/ st = 1)%nat -> s <> "" -> run st s = 0%nat.
Proof.
  revert st. induction s as [|a s IH]; intros st H S N; [congruence|]. cbn in H. apply andb_prop in H as [Ha H]. cbn [run].
  assert (Nd : is_digit a = false).
  { destruct (is_digit a) eqn:E; [|reflexivity]. exfalso. unfold is_digit, is_alpha, between in *. destruct (Z.leb_spec 48 (code a)), (Z.leb_spec (code a) 57), (Z.leb_spec 97 (code a)), (Z.leb_spec (code a) 122), (Z.leb_spec 65 (code a)), (Z.leb_spec (code a) 90); cbn in *; try discriminate; lia. }
  assert (E : step st a = 0%nat).
  { unfold step. rewrite Nd. destruct S as [-> | ->]; destruct (Ascii.eqb_spec a " ") as [->|_]; try (vm_compute in Ha; discriminate); reflexivity. }
  rewrite E. destruct s; [reflexivity|]. apply IH; [exact H | now left | discriminate].
Qed.
Lemma run_fmt w n st : st <> 3%nat -> st <> 2%nat -> run st (fmt w n) = 1%nat.
Proof.
  intros H3 H2. unfold fmt. destruct (Z.ltb_spec n 0).
  - cbn [run]. assert (E : step st "-" = 0%nat) by (destruct st as [|[|[|[|]]]]; try congruence; reflexivity). rewrite E.
    assert (N : numeral (pad (w - 1) (decimal (- n))) (- n)) by (unfold pad; apply numeral_zeros, decimal_numeral; lia).
    apply numeral_spec in N as (D & N & _). apply run_digits; auto.
  - assert (N : numeral (pad w (decimal n)) n) by (unfold pad; apply numeral_zeros, decimal_numeral; lia).
    apply numeral_spec in N as (D & N & _). apply run_digits; auto.
Qed.
Lemma run_fmt2 w n : 0 <= n -> run 2 (fmt w n) = 1%nat.
Proof. intros H. apply (fmt_numeral w) in H. apply numeral_spec in H as (D & N & _). now apply run_digits. Qed.
Theorem C60_default_refuted : forall c s u v, c <> Yearless -> s = CalSpec.full (get_dates s) -> good_start c (get_dates s) ->
  exists text, formatvalue c s u v default_format = Some text /\ str_as_date c text = None.
Proof.
  intros c s u v Hc Hf Hs. destruct (C01_with_units c s u v Hs) as (d & q & H1 & Hv & _).
  destruct (valid_fields c d Hc Hv) as (Bm & Bd & Bh & Bmi & Bs). destruct (month_text _ Bm) as (t & Et & Ht). destruct (month_place _ _ Ht) as (_ & At & Nt).
  set (Y := if Z.abs (year d) <? 100 then String "y" (fmt 0 (year d)) else fmt 0 (year d)).
  exists (t ++ " " ++ fmt 0 (day d) ++ ", " ++ Y ++ " " ++ fmt 2 (hour d) ++ ":" ++ fmt 2 (minute d) ++ ":" ++ fmt 2 (second d) ++ ""). split.
  - unfold formatvalue. rewrite (val_full c s u v false Hf), H1. cbn [bind].
    assert (S1 : subs (CalSpec.full d) "d" = Some (fmt 0 (day d))) by reflexivity.
    assert (S2 : subs (CalSpec.full d) "b" = Some t) by exact Et.
    assert (S3 : subs (CalSpec.full d) "Y" = Some Y) by reflexivity.
    assert (S4 : subs (CalSpec.full d) "H" = Some (fmt 2 (hour d))) by reflexivity.
    assert (S5 : subs (CalSpec.full d) "M" = Some (fmt 2 (minute d))) by reflexivity.
    assert (S6 : subs (CalSpec.full d) "S" = Some (fmt 2 (second d))) by reflexivity.
    clearbody Y. revert S1 S2 S3 S4 S5 S6. generalize (subs (CalSpec.full d)). intros f S1 S2 S3 S4 S5 S6. cbn.
    rewrite S2. cbn. rewrite S1. cbn. rewrite S3. cbn. rewrite S4. cbn. rewrite S5. cbn. rewrite S6. cbn. reflexivity.
  - match goal with |- ?x = None => destruct x as [p|] eqn:E; [|reflexivity] end. exfalso. apply (accepted_run c _ p Hc) in E.
    rewrite run_app in E. rewrite (run_alpha t 0) in E by auto. cbn [append run] in E. change (step 0 " ") with 0%nat in E.
    rewrite run_app in E. rewrite (run_fmt 0 (day d) 0) in E by discriminate. cbn [append run] in E. change (step (step 1 ",") " ") with 0%nat in E.
    rewrite run_app in E. assert (K : run 0 Y = 1%nat).
    { unfold Y. destruct (Z.abs (year d) <? 100); [cbn [run]; change (step 0 "y") with 0%nat|]; apply run_fmt; discriminate. }
    rewrite K in E. cbn [run] in E. change (step 1 " ") with 2%nat in E.
    rewrite run_app in E. rewrite (run_fmt2 2 (hour d)) in E by lia. cbn [append run] in E. change (step 1 ":") with 0%nat in E.
    rewrite run_app in E. rewrite (run_fmt 2 (minute d) 0) in E by discriminate. cbn [append run] in E. change (step 1 ":") with 0%nat in E.
    rewrite run_app in E. rewrite (run_fmt 2 (second d) 0) in E by discriminate. cbn in E. discriminate.
Qed.
Print Assumptions C60_default_refuted.

(** C60, on axes without years a text is the number of a day of at most two digits; *)
Theorem C60_yearless_partial : forall ds d rest, numeral ds d -> (String.length ds <= 2)%nat -> no_digit_first rest -> (forall r, rest <> String ":" r) ->
  str_as_date Yearless (ds ++ rest) = Some (mkpdate None None (Some d) None None None).
Proof.
  intros ds d rest Hd Ld Hr Hc. destruct (numeral_spec _ _ Hd) as (Dd & Nd & Ed & _).
  assert (St : stops is_digit rest).
  { destruct rest as [|a rest]; cbn; [exact I|]. destruct (is_digit a) eqn:Ea; [|reflexivity]. exfalso.
    apply (Hr (String a "") (int_of (String a "")) rest); [|reflexivity]. apply int_numeral; [cbn; now rewrite Ea | discriminate]. }
  pose proof (short_numeral _ _ Hd Ld) as L.
  assert (P : exists l, rx_pattern Yearless true (ds ++ rest) = (((None, None, None), (ds, None)), rest) :: l).
  { unfold rx_pattern, alt, seq_rx at 1. rewrite (no_clock ds rest Dd L St Hc). cbn [app flat_map]. rewrite app_nil_r.
    unfold rx_day. destruct L as [L|L].
    - destruct ds as [|a [|]]; try discriminate L. cbn in Dd. apply andb_prop in Dd as [Ha _]. unfold seq_rx, digits12, alt, digits2, seq_rx, one, ret. cbn. rewrite Ha. cbn.
      destruct rest as [|b rest]; [cbn; eauto|]. cbn in St. rewrite St. cbn. eauto.
    - unfold seq_rx, digits12, alt. rewrite (digits2_yes ds rest Dd L). cbn. eauto. }
  destruct P as [l P]. unfold str_as_date. destruct (numeral_head ds d rest Hd) as (a & r & Es & _). rewrite Es in P |- *. cbn [search]. rewrite P. cbn [bind option_map].
  now rewrite Ed.
Qed.
Print Assumptions C60_yearless_partial.
(** C60, refuted: of a day of three digits or more, only the first two are read. *)
Theorem C60_yearless_refuted : forall a b ds d, numeral (String a (String b "")) d -> every is_digit ds = true -> ds <> "" ->
  str_as_date Yearless (String a (String b ds)) = Some (mkpdate None None (Some d) None None None).
Proof.
  intros a b ds d Hd Dds Nds. destruct (numeral_spec _ _ Hd) as (Dd & Nd & Ed & _). pose proof Dd as Dd'. cbn in Dd'. apply andb_prop in Dd' as [Ha Hb]. apply andb_prop in Hb as [Hb _].
  destruct ds as [|x ds]; [congruence|]. cbn in Dds. apply andb_prop in Dds as [Hx _].
  assert (Nc : forall y r, is_digit y = true -> lit ":" (String y r) = []) by (intros y r Hy; apply lit_no; intros ->; vm_compute in Hy; discriminate).
  assert (K : rx_clock (String a (String b (String x ds))) = []).
  { assert (E : digits12 (String a (String b (String x ds))) = [(String a (String b ""), String x ds); (String a "", String b (String x ds))]).
    { unfold digits12, alt, digits2, seq_rx, one, ret. cbn. rewrite Ha. cbn. rewrite Hb. reflexivity. }
    unfold rx_clock, seq_rx at 1. rewrite E. cbn [flat_map]. unfold seq_rx. rewrite (Nc x ds Hx), (Nc b (String x ds) Hb). reflexivity. }
  assert (P : exists l, rx_pattern Yearless true (String a (String b (String x ds))) = (((None, None, None), (String a (String b ""), None)), String x ds) :: l).
  { unfold rx_pattern, alt, seq_rx at 1. rewrite K. cbn [app flat_map]. rewrite app_nil_r. unfold rx_day, seq_rx, digits12, alt.
    change (String a (String b (String x ds))) with (String a (String b "") ++ String x ds). rewrite (digits2_yes _ (String x ds) Dd eq_refl). cbn. eauto. }
  destruct P as [l P]. unfold str_as_date. cbn [search]. rewrite P. cbn [bind option_map]. now rewrite Ed.
Qed.
Print Assumptions C60_yearless_refuted.

(** The hypotheses are met, and the theorems say something: *)
Definition digits_of (s : string) : every is_digit s = true -> s <> "" -> numeral s (int_of s) := int_numeral s.
Example C60_used : day_text "12" "dEc" "2008" 12 12 2008 /\ clock_text "06" "30" 6 30 /\ no_digit_first " (UTC)" /\
  str_as_date Std ("12 dEc 2008 (UTC)") = Some (mkpdate (Some 2008) (Some 12) (Some 12) None None None) /\
  str_as_date C360 ("06:30 12 dEc 2008") = Some (mkpdate (Some 2008) (Some 12) (Some 12) (Some 6) (Some 30) None) /\
  str_as_date Std ("06:30:15 1 Jan 1979") = Some (mkpdate (Some 1979) (Some 1) (Some 1) (Some 30) (Some 15) None) /\
  str_as_date Std "2000-01-01" = None /\ str_as_date Yearless "123" = Some (mkpdate None None (Some 12) None None None) /\
  formatvalue Std (CalSpec.full (mkdate 2000 1 1 0 0 0)) Hours (63 # 2) "$H:$M $d $b $Y" = Some "07:30 2 Jan 2000" /\
  option_map Qred (str_as_val Std (CalSpec.full (mkdate 2000 1 1 0 0 0)) Hours "07:30 2 Jan 2000") = Some (63 # 2)%Q.
Proof.
  split.
  { split; [exact (digits_of "12" eq_refl ltac:(easy))|]. split; [cbn; lia|]. split; [|exact (digits_of "2008" eq_refl ltac:(easy))].
    exists "Dec". split; [split; [lia | reflexivity]|]. repeat constructor; right; right; split; cbn; lia. }
  split. { split; [exact (digits_of "06" eq_refl ltac:(easy))|]. split; [cbn; lia|]. split; [exact (digits_of "30" eq_refl ltac:(easy)) | reflexivity]. }
  split. { intros n r t H E. destruct (numeral_head n r t H) as (a & x & Ex & Ha). rewrite Ex in E. injection E as <- _. vm_compute in Ha. discriminate. }
  repeat split; vm_compute; reflexivity.
Qed.
