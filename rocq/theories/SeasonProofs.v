From Coq Require Import ZArith List Bool Lia ZifyBool QArith_base.
From Verif Require Import Loop CalModel CalSpec CalProofs CalPyProofs SeasonModel.
Import ListNotations.
Open Scope Z_scope.
Ltac Zify.zify_post_hook ::= Z.to_euclidean_division_equations.

Definition inb (s : Z * Z) (S : Z) : bool := (fst s * 86400 <=? S) && (S <? snd s * 86400).

Lemma Qle_bool_sec a x S : (x == S # 86400)%Q -> Qle_bool (inject_Z a) x = (a * 86400 <=? S).
Proof.
  intros E. apply eq_true_iff_eq. rewrite Qle_bool_iff, E, Z.leb_le.
  unfold Qle, inject_Z; cbn [Qnum Qden]. lia.
Qed.

Lemma in_bounds_sec s x S : (x == S # 86400)%Q -> in_bounds s x = inb s S.
Proof.
  intros E. unfold in_bounds, inb. rewrite !(Qle_bool_sec _ x S E). lia.
Qed.

Lemma shift_sec x S (k : Z) : (x == S # 86400)%Q -> (x + inject_Z k == S + k * 86400 # 86400)%Q.
Proof. intros ->. unfold Qeq, Qplus, inject_Z; cbn [Qnum Qden]. lia. Qed.

Lemma season_loop_val x S y : (x == S # 86400)%Q -> 0 <= S < 700 * 86400 ->
  season_loop 0 season_boundaries x y None =
    if S <? 60 * 86400 then (y, Some 1)
    else if S <? 152 * 86400 then (y, Some 2)
    else if S <? 244 * 86400 then (y, Some 3)
    else if S <? 335 * 86400 then (y, Some 4)
    else if S <? (365 + 60) * 86400 then (y + 1, Some 1)
    else if S <? (365 + 152) * 86400 then (y + 1, Some 2)
    else if S <? (365 + 244) * 86400 then (y + 1, Some 3)
    else (y + 1, Some 4).
Proof.
  intros E HS.
  assert (Em : (x - 365 == S - 365 * 86400 # 86400)%Q).
  { change (x - 365)%Q with (x + inject_Z (-365))%Q. rewrite (shift_sec x S _ E).
    unfold Qeq; cbn [Qnum Qden]; lia. }
  assert (Ep : (x + 365 == S + 365 * 86400 # 86400)%Q).
  { change (x + 365)%Q with (x + inject_Z 365)%Q. apply (shift_sec x S _ E). }
  unfold season_boundaries. cbn [season_loop].
  rewrite !(in_bounds_sec _ _ _ E), !(in_bounds_sec _ _ _ Em), !(in_bounds_sec _ _ _ Ep).
  unfold inb; cbn [fst snd].
  destruct (Z.ltb_spec S (60 * 86400)); [repeat (match goal with |- context [if ?b then _ else _] =>
     first [replace b with true by lia | replace b with false by lia]; cbv iota end); reflexivity|].
  destruct (Z.ltb_spec S (152 * 86400)); [repeat (match goal with |- context [if ?b then _ else _] =>
     first [replace b with true by lia | replace b with false by lia]; cbv iota end); reflexivity|].
  destruct (Z.ltb_spec S (244 * 86400)); [repeat (match goal with |- context [if ?b then _ else _] =>
     first [replace b with true by lia | replace b with false by lia]; cbv iota end); reflexivity|].
  destruct (Z.ltb_spec S (335 * 86400)); [repeat (match goal with |- context [if ?b then _ else _] =>
     first [replace b with true by lia | replace b with false by lia]; cbv iota end); reflexivity|].
  destruct (Z.ltb_spec S ((365+60) * 86400)); [repeat (match goal with |- context [if ?b then _ else _] =>
     first [replace b with true by lia | replace b with false by lia]; cbv iota end); reflexivity|].
  destruct (Z.ltb_spec S ((365+152) * 86400)); [repeat (match goal with |- context [if ?b then _ else _] =>
     first [replace b with true by lia | replace b with false by lia]; cbv iota end); reflexivity|].
  destruct (Z.ltb_spec S ((365+244) * 86400)); [repeat (match goal with |- context [if ?b then _ else _] =>
     first [replace b with true by lia | replace b with false by lia]; cbv iota end); reflexivity|].
  repeat (match goal with |- context [if ?b then _ else _] =>
     first [replace b with true by lia | replace b with false by lia]; cbv iota end); reflexivity.
Qed.

Definition sec_of_doy (l : bool) (d : date) : Z := (month2doy l (month d) + day d) * 86400 + tod d.

Lemma get_seasons_val base l d : (base = Std /\ l = true) \/ (base = C365 /\ l = false) ->
  1 <= month d <= 12 -> 1 <= day d <= 31 -> valid_time d ->
  get_seasons base (full d) =
    let S := sec_of_doy l d in
    if S <? 60 * 86400 then Some (year d, 1)
    else if S <? 152 * 86400 then Some (year d, 2)
    else if S <? 244 * 86400 then Some (year d, 3)
    else if S <? 335 * 86400 then Some (year d, 4) else Some (year d + 1, 1).
Proof.
  intros Hb Hm Hd Ht. unfold get_seasons.
  assert (K : exists q, getdoy base (full d) = Some q /\ (q == sec_of_doy l d # 86400)%Q).
  { unfold sec_of_doy, tod. destruct Hb as [[-> ->]|[-> ->]].
    - destruct (getdoy_std_value d Hm) as (q & E1 & E2). exists q; split; [exact E1|].
      rewrite E2. unfold Qeq; cbn [Qnum Qden]; lia.
    - destruct (getdoy_365_value d Hm) as (q & E1 & E2). exists q; split; [exact E1|].
      rewrite E2. unfold Qeq; cbn [Qnum Qden]; lia. }
  destruct K as (q & E1 & E2). rewrite E1.
  pose proof (month2doy_range l (month d) Hm) as R.
  assert (HS : 0 <= sec_of_doy l d < 425 * 86400).
  { unfold sec_of_doy, tod, valid_time in *. unfold b2z in R. destruct l; lia. }
  rewrite (season_loop_val q _ _ E2) by lia. rewrite get_full. cbv zeta.
  set (S := sec_of_doy l d) in *. clearbody S.
  repeat match goal with |- context [?a <? ?b] => destruct (Z.ltb_spec a b); [reflexivity|] end; lia.
Qed.

Ltac eval_m2d := repeat match goal with |- context [month2doy ?b ?k] =>
    let v := eval vm_compute in (month2doy b k) in change (month2doy b k) with v end.

Lemma season_365 d : valid_date C365 d -> exists y s,
  get_seasons C365 (full d) = Some (y, s) /\ season_of (year d) (month d) y s.
Proof.
  intros V. apply v365_valid in V. destruct V as (Ht & Hm & Hd).
  pose proof (month2doy_range false (month d) Hm) as R.
  rewrite (get_seasons_val C365 false) by (auto; lia). cbv zeta.
  assert (HS : (month2doy false (month d) + day d) * 86400 <= sec_of_doy false d
     < (month2doy false (month d) + day d + 1) * 86400)
    by (unfold sec_of_doy, tod, valid_time in *; lia).
  set (S := sec_of_doy false d) in *. clearbody S.
  revert Hd HS. generalize (day d) as dd. clear R Ht. revert Hm.
  generalize (month d). by_month; unfold mlen; cbn [Z.eqb Pos.eqb b2z Z.add Pos.add Pos.succ]; eval_m2d;
    intros dd Hd HS;
    repeat match goal with |- context [?a <? ?b] => destruct (Z.ltb_spec a b); try lia end;
    do 2 eexists; (split; [reflexivity|constructor; lia]).
Qed.

Lemma season_std d : valid_date Std d -> exists y s,
  get_seasons Std (full d) = Some (y, s) /\
  (season_of (year d) (month d) y s <-> ~ boundary_day (month d) (day d)).
Proof.
  intros V. apply vstd_valid in V. destruct V as (Ht & Hm & Hd).
  pose proof (month2doy_range (isleap (year d)) (month d) Hm) as R.
  rewrite (get_seasons_val Std true) by (auto; lia). cbv zeta. clear R.
  assert (HS : (month2doy true (month d) + day d) * 86400 <= sec_of_doy true d
     < (month2doy true (month d) + day d + 1) * 86400)
    by (unfold sec_of_doy, tod, valid_time in *; lia).
  assert (HL : 1 <= day d <= mlen true (month d)).
  { split; [lia|]. etransitivity; [apply Hd|]. clear - Hm. revert Hm. generalize (month d).
    destruct (isleap (year d)); by_month; vm_compute; congruence. }
  set (S := sec_of_doy true d) in *. clearbody S. clear Hd. unfold boundary_day.
  revert HL HS. generalize (day d) as dd. clear Ht. revert Hm.
  generalize (month d). by_month; unfold mlen; cbn [Z.eqb Pos.eqb b2z Z.add Pos.add Pos.succ]; eval_m2d;
    intros dd Hd HS;
    repeat match goal with |- context [?a <? ?b] => destruct (Z.ltb_spec a b); try lia end;
    do 2 eexists; (split; [reflexivity|]);
    (split; [intros Hx; inversion Hx; lia | intros Hx; first [exfalso; lia | constructor; lia]]).
Qed.

(** season -> value -> season *)
Lemma season_cases s : 1 <= s <= 4 -> s = 1 \/ s = 2 \/ s = 3 \/ s = 4.
Proof. lia. Qed.

Lemma cdate_valid base y s : base = Std \/ base = C365 -> 1 <= s <= 4 -> valid_date base (get_cdates y s).
Proof.
  intros Hb Hs. destruct (season_cases s Hs) as [-> | [-> | [-> | ->]]]; unfold get_cdates;
   cbn [Z.sub Z.add Z.opp Z.pos_sub Pos.pred_double Pos.sub Z.div Z.modulo];
   (split; [unfold valid_time; cbn; lia|]).
  all: destruct Hb as [-> | ->]; cbn [year month day];
    [eexists; split; [apply mlen_spec; split; [|reflexivity]; vm_compute; intuition congruence|]
    |eexists; split; [apply mlen365_spec; split; [|reflexivity]; vm_compute; intuition congruence|]].
  all: try (vm_compute; intuition congruence).
  all: match goal with |- context [isleap ?x] => destruct (isleap x) end; vm_compute; intuition congruence.
Qed.

Lemma season_roundtrip base st u y s : base = Std \/ base = C365 -> good_start base (get_dates st) ->
  1 <= s <= 4 -> exists q, season_date_as_val base st u y s = Some q /\
    season_val_as_date base st u q = Some (y, s).
Proof.
  intros Hb Hst Hs. pose proof (cdate_valid base y s Hb Hs) as V.
  destruct (py_date_val_date base st u _ Hst V) as (q & E1 & E2).
  unfold season_date_as_val, season_val_as_date. exists q. split; [exact E1|]. rewrite E2.
  assert (Ht : valid_time (get_cdates y s)) by apply V.
  assert (Hm : 1 <= month (get_cdates y s) <= 12 /\ 1 <= day (get_cdates y s) <= 31).
  { destruct (season_cases s Hs) as [-> | [-> | [-> | ->]]]; vm_compute; intuition congruence. }
  assert (Hy : year (get_cdates y s) = y).
  { unfold get_cdates; cbn [year]. rewrite Z.div_small by lia. lia. }
  destruct Hb as [-> | ->].
  - rewrite (get_seasons_val Std true) by (auto; tauto). rewrite Hy.
    destruct (season_cases s Hs) as [-> | [-> | [-> | ->]]]; vm_compute; reflexivity.
  - rewrite (get_seasons_val C365 false) by (auto; tauto). rewrite Hy.
    destruct (season_cases s Hs) as [-> | [-> | [-> | ->]]]; vm_compute; reflexivity.
Qed.

Lemma season_wrap base st u y s k :
  season_date_as_val base st u y (s + 4 * k) = season_date_as_val base st u (y + k) s.
Proof.
  unfold season_date_as_val, get_cdates.
  replace (s + 4 * k - 1) with (s - 1 + k * 4) by lia.
  rewrite Z.div_add, Z_mod_plus_full by lia.
  replace (y + ((s - 1) / 4 + k)) with (y + k + (s - 1) / 4) by lia. reflexivity.
Qed.
