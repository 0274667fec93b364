(** Lemmas on the strings of CfModel. *)
From Coq Require Import ZArith List Bool QArith_base Ascii String Lia.
From Verif Require Import CalModel CalSpec TimeSearchModel AxisModel StencilModel CfModel CfSpec.
Import ListNotations.
Open Scope Z_scope.

Fixpoint every (p : ascii -> bool) (s : string) : bool :=
  match s with EmptyString => true | String a r => p a && every p r end.
Lemma every_app p s t : every p (s ++ t) = every p s && every p t.
Proof. induction s; cbn; auto. rewrite IHs. apply andb_assoc. Qed.
Lemma every_weak (p q : ascii -> bool) s : (forall a, p a = true -> q a = true) -> every p s = true -> every q s = true.
Proof. intros H. induction s as [|a s IH]; cbn; auto. rewrite !andb_true_iff. intros [A B]. auto. Qed.
Lemma app_assoc' (a b c : string) : ((a ++ b) ++ c)%string = (a ++ (b ++ c))%string.
Proof. induction a; cbn; congruence. Qed.
Lemma app_nil' (a : string) : (a ++ "")%string = a.
Proof. induction a; cbn; congruence. Qed.
Definition stops (p : ascii -> bool) (s : string) : Prop := match s with EmptyString => True | String a _ => p a = false end.
Lemma span_app p s t : every p s = true -> stops p t -> span p (s ++ t) = (s, t).
Proof.
  intros Hs Ht. induction s as [|a s IH]; cbn [append].
  - destruct t as [|b t]; [reflexivity|]. cbn in *. rewrite Ht. reflexivity.
  - cbn in Hs. apply andb_true_iff in Hs. destruct Hs as [A B]. cbn. rewrite A, IH by auto. reflexivity.
Qed.
Lemma span_all p s : every p s = true -> span p s = (s, ""%string).
Proof. intros H. rewrite <- (app_nil' s) at 1. apply span_app; cbn; auto. Qed.
Lemma span_none p s : stops p s -> span p s = (""%string, s).
Proof. intros H. exact (span_app p "" s eq_refl H). Qed.

Lemma rstrip_app s t : t <> ""%string -> rstrip t = t -> rstrip (s ++ t) = (s ++ t)%string.
Proof.
  intros Ht Et. induction s as [|a s IH]; cbn [append]; auto. cbn [rstrip]. rewrite IH.
  destruct (s ++ t)%string eqn:E; [|reflexivity]. destruct s; cbn in E; congruence.
Qed.
Lemma rstrip_solid s : every (fun a => negb (is_space a)) s = true -> rstrip s = s.
Proof.
  induction s as [|a s IH]; cbn; auto. rewrite andb_true_iff. intros [A B]. rewrite IH by auto.
  destruct s; auto. apply negb_true_iff in A. rewrite A. reflexivity.
Qed.

(** *** digits *)
Definition dstr := "0123456789"%string.
Lemma get_digit d c : String.get d dstr = Some c -> (d < 10)%nat /\ is_digit c = true /\ code c - 48 = Z.of_nat d /\ c = digit (Z.of_nat d).
Proof. do 10 (destruct d as [|d]; [intros [= <-]; vm_compute; intuition lia|]). cbn. destruct d; discriminate. Qed.
Lemma digit_get d : 0 <= d < 10 -> String.get (Z.to_nat d) dstr = Some (digit d).
Proof. intros H. assert (C : d = 0 \/ d = 1 \/ d = 2 \/ d = 3 \/ d = 4 \/ d = 5 \/ d = 6 \/ d = 7 \/ d = 8 \/ d = 9) by lia. destruct C as [->|[->|[->|[->|[->|[->|[->|[->|[->| ->]]]]]]]]]; reflexivity. Qed.
Lemma int_from_app acc s c : int_from acc (s ++ String c "") = 10 * int_from acc s + (code c - 48).
Proof. revert acc. induction s as [|a s IH]; intros acc; cbn [append int_from]; auto. Qed.
Lemma numeral_spec s n : numeral s n -> every is_digit s = true /\ s <> ""%string /\ int_of s = n /\ 0 <= n.
Proof.
  induction 1 as [c d H|s n c d H IH Hc].
  - apply get_digit in H. destruct H as (A & B & C & _). cbn. rewrite B. repeat split; try discriminate; try lia; unfold int_of; cbn; lia.
  - apply get_digit in Hc. destruct Hc as (A & B & C & _). destruct IH as (I1 & I2 & I3 & I4).
    rewrite every_app. cbn [every]. rewrite I1, B. split; [reflexivity|split; [|split; [|lia]]].
    + destruct s; discriminate.
    + unfold int_of in *. rewrite int_from_app. lia.
Qed.
Lemma numeral_front s n : numeral s n -> numeral (String (digit 0) s) n.
Proof.
  induction 1 as [c d H|s n c d H IH Hc].
  - change (numeral (String (digit 0) "" ++ String c "") (10 * 0 + Z.of_nat d)). apply numeral_more; auto. apply (numeral_one _ 0%nat). reflexivity.
  - change (numeral (String (digit 0) s ++ String c "") (10 * n + Z.of_nat d)). apply numeral_more; auto.
Qed.
Lemma numeral_zeros k s n : numeral s n -> numeral (zeros k ++ s) n.
Proof. intros H. induction k; cbn [zeros append]; auto. apply numeral_front. auto. Qed.
Lemma dec_numeral f n : 0 <= n -> n < 2 ^ Z.of_nat (S f) -> numeral (dec (S f) n) n.
Proof.
  revert n. induction f as [|f IH]; intros n H0 H1.
  all: assert (M : 0 <= n mod 10 < 10) by (apply Z.mod_pos_bound; lia).
  all: assert (G := digit_get _ M).
  - change (2 ^ Z.of_nat 1) with 2 in H1. cbn [dec]. destruct (n <? 10) eqn:E; [|apply Z.ltb_ge in E; lia].
    rewrite Z.mod_small in * by lia. assert (N := numeral_one _ _ G). rewrite Z2Nat.id in N by lia. exact N.
  - change (dec (S (S f)) n) with (if n <? 10 then String (digit (n mod 10)) "" else (dec (S f) (n / 10) ++ String (digit (n mod 10)) "")%string).
    destruct (n <? 10) eqn:E.
    + apply Z.ltb_lt in E. rewrite Z.mod_small in * by lia. assert (N := numeral_one _ _ G). rewrite Z2Nat.id in N by lia. exact N.
    + apply Z.ltb_ge in E. rewrite (Nat2Z.inj_succ (S f)), Z.pow_succ_r in H1 by lia.
      assert (N := numeral_more _ _ _ _ (IH (n / 10) ltac:(apply Z.div_pos; lia) ltac:(apply Z.div_lt_upper_bound; nia)) G).
      rewrite Z2Nat.id in N by lia. rewrite <- Z.div_mod in N by lia. exact N.
Qed.
Lemma decimal_numeral n : 0 <= n -> numeral (decimal n) n.
Proof.
  intros H. apply dec_numeral; auto. rewrite Nat2Z.inj_succ, Z2Nat.id by apply Z.log2_nonneg.
  destruct (Z.eq_dec n 0) as [->|N]; [reflexivity|]. apply Z.log2_spec. lia.
Qed.
Lemma fmt_numeral w n : 0 <= n -> numeral (fmt w n) n.
Proof. intros H. unfold fmt. destruct (n <? 0) eqn:E; [lia|]. apply numeral_zeros, decimal_numeral, H. Qed.

(** *** the scanners *)
Definition plain (s : string) : Prop := every is_dot s = true.
Lemma digit_dot a : is_digit a = true -> is_dot a = true.
Proof. unfold is_digit, is_dot, between. rewrite andb_true_iff, !Z.leb_le, negb_true_iff, Z.eqb_neq. lia. Qed.
Lemma digit_solid a : is_digit a = true -> negb (is_space a) = true.
Proof. unfold is_digit, is_space, between. rewrite andb_true_iff, !Z.leb_le. intros H. apply negb_true_iff, orb_false_iff. split; apply andb_false_iff; rewrite !Z.leb_gt; lia. Qed.
Lemma numeral_plain s n : numeral s n -> plain s.
Proof. intros H. apply (every_weak is_digit); [apply digit_dot|apply (numeral_spec s n H)]. Qed.
Lemma numeral_solid s n : numeral s n -> every (fun a => negb (is_space a)) s = true.
Proof. intros H. apply (every_weak is_digit); [apply digit_solid|apply (numeral_spec s n H)]. Qed.
Lemma plain_app s t : plain s -> plain t -> plain (s ++ t).
Proof. unfold plain. rewrite every_app. intros -> ->. reflexivity. Qed.
Lemma numeral_head s n t : numeral s n -> exists a r, (s ++ t)%string = String a r /\ is_digit a = true.
Proof. intros H. destruct (numeral_spec s n H) as (A & B & _). destruct s as [|a r]; [congruence|]. cbn in A. apply andb_true_iff in A. exists a, (r ++ t)%string. split; [reflexivity|apply A]. Qed.
Lemma neq_eqb s : s <> ""%string -> String.eqb s "" = false.
Proof. intros H. apply String.eqb_neq. exact H. Qed.
(** a numeral, the separator, and the rest *)
Lemma match_number_sep sep s n t : numeral s n -> is_digit sep = false -> plain t ->
  match_number sep (s ++ String sep t) = Some (n, t).
Proof.
  intros H Hs Ht. destruct (numeral_spec s n H) as (A & B & C & _). unfold match_number.
  rewrite (span_app is_digit s (String sep t) A Hs). rewrite (neq_eqb s B), C, Ascii.eqb_refl, (span_all is_dot t Ht). reflexivity.
Qed.
Lemma match_number_end sep s n : numeral s n -> match_number sep s = Some (n, ""%string).
Proof. intros H. destruct (numeral_spec s n H) as (A & B & C & _). unfold match_number. rewrite (span_all _ _ A), (neq_eqb s B), C. reflexivity. Qed.
Lemma match_day_end s n : numeral s n -> match_day s = Some (n, ""%string).
Proof. intros H. destruct (numeral_spec s n H) as (A & B & C & _). unfold match_day. rewrite (span_all _ _ A), (neq_eqb s B), C. reflexivity. Qed.
Lemma match_second_end s n : numeral s n -> match_second s = Some (n, ""%string).
Proof. intros H. destruct (numeral_spec s n H) as (A & B & C & _). unfold match_second. rewrite (span_all _ _ A), (neq_eqb s B), C. reflexivity. Qed.
Lemma digit_not_space a : is_digit a = true -> is_space a = false.
Proof. intros H. apply digit_solid in H. apply negb_true_iff, H. Qed.
Lemma match_day_blank s n t : numeral s n -> stops is_space t -> plain t -> match_day (s ++ String " " t) = Some (n, t).
Proof.
  intros H Hs Ht. destruct (numeral_spec s n H) as (A & B & C & _). unfold match_day.
  rewrite (span_app is_digit s (String " " t) A eq_refl), (neq_eqb s B), C.
  change (String " " t) with (" " ++ t)%string. rewrite (span_app is_space " " t eq_refl Hs). cbn [snd]. rewrite (span_all is_dot t Ht). reflexivity.
Qed.
Lemma match_day_T s n t : numeral s n -> plain t -> match_day (s ++ String "T" t) = Some (n, String "T" t).
Proof.
  intros H Ht. destruct (numeral_spec s n H) as (A & B & C & _). unfold match_day.
  rewrite (span_app is_digit s (String "T" t) A eq_refl), (neq_eqb s B), C.
  rewrite (span_none is_space (String "T" t) eq_refl). cbn [snd]. rewrite (span_all is_dot (String "T" t)); [reflexivity|]. exact Ht.
Qed.
Lemma field_app m other s n t : numeral s n -> field m other (s ++ t) = m (s ++ t)%string.
Proof. intros H. unfold field. destruct (numeral_head s n t H) as (a & r & E & _). rewrite E. reflexivity. Qed.
Lemma field_num m other s n : numeral s n -> field m other s = m s.
Proof. intros H. rewrite <- (app_nil' s). apply (field_app _ _ _ n), H. Qed.

(** *** the reference date *)
Definition no_t (s : string) : string := match s with String a r => if Ascii.eqb a "T"%char then r else s | _ => s end.
Lemma digit_not_T a : is_digit a = true -> Ascii.eqb a "T" = false.
Proof. intros H. apply Ascii.eqb_neq. intros ->. discriminate. Qed.
Lemma digit_not_blank a : is_digit a = true -> Ascii.eqb a " " = false.
Proof. intros H. apply Ascii.eqb_neq. intros ->. discriminate. Qed.

Lemma rstrip_numeral s t n : numeral t n -> rstrip (s ++ t) = (s ++ t)%string.
Proof. intros H. apply rstrip_app; [apply (numeral_spec t n H)|]. apply rstrip_solid, (numeral_solid t n H). Qed.

Ltac plainly := repeat match goal with |- plain (_ ++ _) => apply plain_app | |- plain (String _ _) => apply (plain_app (String _ "")); [reflexivity|] end;
  try reflexivity; try (eapply numeral_plain; eassumption).

Lemma read_date_day ys ms ds y m d : numeral ys y -> numeral ms m -> numeral ds d ->
  read_date (ys ++ "-" ++ ms ++ "-" ++ ds) = Some (mkdate y m d 0 0 0).
Proof.
  intros Y M D. unfold read_date.
  replace (rstrip (ys ++ "-" ++ ms ++ "-" ++ ds)) with (ys ++ "-" ++ ms ++ "-" ++ ds)%string.
  2:{ symmetry. replace (ys ++ "-" ++ ms ++ "-" ++ ds)%string with ((ys ++ "-" ++ ms ++ "-") ++ ds)%string by (rewrite !app_assoc'; reflexivity). eapply rstrip_numeral; eauto. }
  rewrite (field_app _ _ ys y) by auto. cbn [append]. rewrite (match_number_sep "-" ys y) by (auto; plainly). cbn [bind].
  rewrite (field_app _ _ ms m) by auto. rewrite (match_number_sep "-" ms m) by (auto; plainly). cbn [bind].
  rewrite (field_num _ _ ds d) by auto. rewrite (match_day_end ds d) by auto. reflexivity.
Qed.

(** what is left after the day *)
Lemma after_day ds d sep t : numeral ds d -> sep = " "%string \/ sep = "T"%string -> (exists a r, t = String a r /\ is_digit a = true) -> plain t ->
  exists t', match_day (ds ++ sep ++ t) = Some (d, t') /\ no_t t' = t.
Proof.
  intros D S (a & r & E & Ha) Pt. destruct S as [-> | ->].
  - exists t. split; [|rewrite E; unfold no_t; rewrite digit_not_T by auto; reflexivity].
    apply match_day_blank; auto. rewrite E. exact (digit_not_space a Ha).
  - exists (String "T" t). split; [|reflexivity]. apply match_day_T; auto.
Qed.

Definition clock (s : string) : option (Z * Z * Z) :=
  bind (field (match_number ":"%char) 0 s) (fun '(h, s) =>
  bind (field (match_number ":"%char) 0 s) (fun '(mi, s) =>
  bind (match s with
        | String a _ => if Ascii.eqb a " "%char then Some (0, s) else match_second s
        | EmptyString => Some (0, s)
        end) (fun '(sec, _) => Some (h, mi, sec)))).
Lemma read_date_clock ys ms ds sep t y m d h mi s z ts :
  numeral ys y -> numeral ms m -> numeral ds d -> sep = " "%string \/ sep = "T"%string -> (exists a r, t = String a r /\ is_digit a = true) ->
  plain t -> (exists front, t = (front ++ ts)%string) -> numeral ts z -> clock t = Some (h, mi, s) ->
  read_date (ys ++ "-" ++ ms ++ "-" ++ ds ++ sep ++ t) = Some (mkdate y m d h mi s).
Proof.
  intros Y M D S Ht Pt (front & Et) Z C. unfold read_date.
  replace (rstrip (ys ++ "-" ++ ms ++ "-" ++ ds ++ sep ++ t)) with (ys ++ "-" ++ ms ++ "-" ++ ds ++ sep ++ t)%string.
  2:{ symmetry. replace (ys ++ "-" ++ ms ++ "-" ++ ds ++ sep ++ t)%string with ((ys ++ "-" ++ ms ++ "-" ++ ds ++ sep ++ front) ++ ts)%string by (rewrite Et, !app_assoc'; reflexivity). eapply rstrip_numeral; eauto. }
  assert (Psep : plain sep) by (destruct S as [-> | ->]; reflexivity).
  rewrite (field_app _ _ ys y) by auto. cbn [append]. rewrite (match_number_sep "-" ys y) by (auto; plainly; auto). cbn [bind].
  rewrite (field_app _ _ ms m) by auto. rewrite (match_number_sep "-" ms m) by (auto; plainly; auto). cbn [bind].
  rewrite (field_app _ _ ds d) by auto. destruct (after_day ds d sep t D S Ht Pt) as (t' & E1 & E2). rewrite E1. cbn [bind].
  change (match t' with String a r => if Ascii.eqb a "T" then r else t' | EmptyString => t' end) with (no_t t'). rewrite E2.
  unfold clock in C.
  destruct (field (match_number ":") 0 t) as [[h' s1]|]; cbn [bind] in *; [|discriminate].
  destruct (field (match_number ":") 0 s1) as [[mi' s2]|]; cbn [bind] in *; [|discriminate].
  destruct (match s2 with String a _ => if Ascii.eqb a " " then Some (0, s2) else match_second s2 | EmptyString => Some (0, s2) end) as [[s3 ?]|]; cbn [bind] in *; [|discriminate].
  injection C as -> -> ->. reflexivity.
Qed.
Lemma clock_minute hs mis h mi : numeral hs h -> numeral mis mi -> clock (hs ++ ":" ++ mis) = Some (h, mi, 0).
Proof.
  intros H M. unfold clock. rewrite (field_app _ _ hs h) by auto. cbn [append]. rewrite (match_number_sep ":" hs h) by (auto; plainly). cbn [bind].
  rewrite (field_num _ _ mis mi) by auto. rewrite (match_number_end ":" mis mi) by auto. reflexivity.
Qed.
Lemma clock_second hs mis ss h mi s : numeral hs h -> numeral mis mi -> numeral ss s -> clock (hs ++ ":" ++ mis ++ ":" ++ ss) = Some (h, mi, s).
Proof.
  intros H M S. unfold clock. rewrite (field_app _ _ hs h) by auto. cbn [append]. rewrite (match_number_sep ":" hs h) by (auto; plainly). cbn [bind].
  rewrite (field_app _ _ mis mi) by auto. rewrite (match_number_sep ":" mis mi) by (auto; plainly). cbn [bind].
  destruct (numeral_head ss s "" S) as (a & r & E & Ha). rewrite app_nil' in E. rewrite E at 1. rewrite digit_not_blank by auto.
  rewrite (match_second_end ss s) by auto. reflexivity.
Qed.

Lemma match_since_of r u t : names_unit r u -> stops is_space t -> plain t -> match_since (r ++ " since " ++ t) = Some (r, t) /\ read_unit r = Some u.
Proof.
  intros N S P. assert (A : every is_alpha r = true /\ r <> ""%string /\ read_unit r = Some u) by (destruct N; vm_compute; auto; repeat split; discriminate).
  destruct A as (A & B & C). split; [|exact C]. unfold match_since. cbn [append].
  rewrite (span_app is_alpha r (String " " (String "s" (String "i" (String "n" (String "c" (String "e" (String " " t))))))) A eq_refl).
  change (String " " (String "s" (String "i" (String "n" (String "c" (String "e" (String " " t))))))) with (" " ++ "since" ++ " " ++ t)%string.
  rewrite (span_app is_space " " ("since" ++ " " ++ t)%string eq_refl eq_refl).
  change (strip "since" ("since" ++ " " ++ t)) with (Some (" " ++ t)%string). cbn [bind].
  rewrite (span_app is_space " " t eq_refl S), (neq_eqb r B), (span_all is_dot t P). reflexivity.
Qed.

Lemma starts_digit s n t : numeral s n -> stops is_space (s ++ t).
Proof. intros H. destruct (numeral_head s n t H) as (a & r & E & Ha). rewrite E. exact (digit_not_space a Ha). Qed.

Lemma read_reference s u d : reference s u d -> read_units s = Some (u, d).
Proof.
  intros [r u' ys ms ds y m dd N Y M D|r u' ys ms ds hs mis y m dd h mi sep N Y M D H Mi Sep|r u' ys ms ds hs mis ss y m dd h mi sc sep N Y M D H Mi Sc Sep].
  - destruct (match_since_of r u' (ys ++ "-" ++ ms ++ "-" ++ ds) N) as (E1 & E2); [eapply starts_digit; eauto|cbn [append]; plainly|].
    unfold read_units. rewrite E1. cbn [bind]. rewrite (read_date_day ys ms ds y m dd) by auto. cbn [bind]. rewrite E2. reflexivity.
  - assert (Psep : plain sep) by (destruct Sep as [-> | ->]; reflexivity).
    destruct (match_since_of r u' (ys ++ "-" ++ ms ++ "-" ++ ds ++ sep ++ hs ++ ":" ++ mis) N) as (E1 & E2); [eapply starts_digit; eauto|cbn [append]; plainly; auto|].
    unfold read_units. rewrite E1. cbn [bind].
    rewrite (read_date_clock ys ms ds sep (hs ++ ":" ++ mis) y m dd h mi 0 mi mis); auto.
    + cbn [bind]. rewrite E2. reflexivity.
    + apply (numeral_head hs h), H.
    + cbn [append]; plainly.
    + exists (hs ++ ":")%string. rewrite !app_assoc'. reflexivity.
    + apply clock_minute; auto.
  - assert (Psep : plain sep) by (destruct Sep as [-> | ->]; reflexivity).
    destruct (match_since_of r u' (ys ++ "-" ++ ms ++ "-" ++ ds ++ sep ++ hs ++ ":" ++ mis ++ ":" ++ ss) N) as (E1 & E2); [eapply starts_digit; eauto|cbn [append]; plainly; auto|].
    unfold read_units. rewrite E1. cbn [bind].
    rewrite (read_date_clock ys ms ds sep (hs ++ ":" ++ mis ++ ":" ++ ss) y m dd h mi sc sc ss); auto.
    + cbn [bind]. rewrite E2. reflexivity.
    + apply (numeral_head hs h), H.
    + cbn [append]; plainly.
    + exists (hs ++ ":" ++ mis ++ ":")%string. rewrite !app_assoc'. reflexivity.
    + apply clock_second; auto.
Qed.

Lemma units_reference u p : nonnegative (get_dates p) -> reference (units_text u p) u (get_dates p).
Proof.
  intros (A & B & C & D & E & F). unfold units_text. destruct (get_dates p) as [y m d h mi s]. cbn [year month day hour minute second] in *.
  change (unit_name u ++ " since " ++ fmt 4 y ++ "-" ++ fmt 2 m ++ "-" ++ fmt 2 d ++ " " ++ fmt 2 h ++ ":" ++ fmt 2 mi ++ ":" ++ fmt 2 s)%string
    with (unit_name u ++ " since " ++ fmt 4 y ++ "-" ++ fmt 2 m ++ "-" ++ fmt 2 d ++ (" " ++ fmt 2 h ++ ":" ++ fmt 2 mi ++ ":" ++ fmt 2 s))%string.
  apply (ref_second (unit_name u) u (fmt 4 y) (fmt 2 m) (fmt 2 d) (fmt 2 h) (fmt 2 mi) (fmt 2 s) y m d h mi s " "); auto using fmt_numeral.
  destruct u; constructor.
Qed.
Lemma read_calendar_name s c : names_calendar s c -> read_calendar s = Some c.
Proof. intros []; reflexivity. Qed.
Lemma written_calendar c : names_calendar (cal_name c) c.
Proof. destruct c; constructor. Qed.
