From Coq Require Import ZArith List Bool QArith_base Qround Lia Permutation.
From Coq Require Import QArith.
From Verif Require Import CalModel CalSpec CalProofs CalPyProofs TimeSearchModel TimeSearchSpec TimeDateProofs IndexModel IndexSpec ArrModel ViewModel AxisModel AxisSpec VarOpsModel VarOpsSpec SelectModel StencilModel ConcatModel ClimModel.
From Verif Require Import SortSpec IndexProofs ArrProofs VarOpsProofs LeapModel LeapSpec.
Import ListNotations.
Open Scope Z_scope.
Notation zlen := IndexSpec.zlen.

(** *** day of the year as a function *)
Definition leapish (c : cal) (y : Z) : bool := match c with Std => isleap y | _ => false end.
Definition doyf (c : cal) (d : date) : Z :=
  match c with C360 => 30 * (month d - 1) + day d | _ => month2doy (leapish c (year d)) (month d) + day d end.
Definition ylen (c : cal) (y : Z) : Z := match c with C360 => 360 | _ => 365 + b2z (leapish c y) end.

Lemma doy_exists c y m : c <> Yearless -> 1 <= m <= 12 -> forall d, exists k, day_of_year c y m d k.
Proof.
  intros Hc Hm. assert (forall n : nat, (n <= 11)%nat -> forall d, exists k, day_of_year c y (1 + Z.of_nat n) d k) as H.
  { induction n as [|n IH]; intros Hn d; [exists d; apply doy_jan|].
    destruct (some_length c y (1 + Z.of_nat n) Hc ltac:(lia)) as (l & Hl & _).
    destruct (IH ltac:(lia) (d + l)) as [k Hk]. exists k. replace (1 + Z.of_nat (S n)) with (1 + Z.of_nat n + 1) by lia. now apply (doy_next c y _ d l). }
  intros d. destruct (H (Z.to_nat (m - 1)) ltac:(lia) d) as [k Hk]. exists k. now replace (1 + Z.of_nat (Z.to_nat (m - 1))) with m in Hk by lia.
Qed.
Lemma doy_is c d k : c <> Yearless -> 1 <= month d <= 12 -> day_of_year c (year d) (month d) (day d) k -> k = doyf c d.
Proof.
  intros Hc Hm H. unfold doyf, leapish. destruct c; try congruence; [apply (doy_table _ _ _ _ _ H); auto|apply (doy_table _ _ _ _ _ H); auto|apply (doy_360 _ _ _ _ H)].
Qed.
Lemma doy_fun c d : c <> Yearless -> 1 <= month d <= 12 -> day_of_year c (year d) (month d) (day d) (doyf c d).
Proof. intros Hc Hm. destruct (doy_exists c (year d) (month d) Hc Hm (day d)) as [k Hk]. now rewrite <- (doy_is c d k Hc Hm Hk). Qed.

Lemma valid_month c d : c <> Yearless -> valid_date c d -> 1 <= month d <= 12.
Proof. intros Hc [_ H]. destruct c; try congruence; destruct H as (n & H & _); apply month_length_bounds in H; lia. Qed.
Definition first (y : Z) : date := mkdate y 1 1 0 0 0.
Lemma A_doy c d : c <> Yearless -> A c d = A c (first (year d)) + (doyf c d - 1) * 86400 + tod d.
Proof.
  intros Hc. unfold doyf, leapish, first. destruct c; try congruence; cbn [A]; unfold A_std, A_365, A_360; cbn [year month day]; change (tod (mkdate (year d) 1 1 0 0 0)) with 0.
  - replace (month2doy (isleap (year d)) 1) with 0 by (destruct (isleap (year d)); reflexivity). lia.
  - change (month2doy false 1) with 0. lia.
  - lia.
Qed.
Lemma tod_range d : valid_time d -> 0 <= tod d < 86400.
Proof. intros (H1 & H2 & H3). unfold tod. lia. Qed.
Lemma year_length_is c y n : year_length c y n -> n = ylen c y.
Proof.
  unfold year_length, ylen, leapish. destruct c; try tauto; try (intros ->; reflexivity).
  intros [[H ->]|[H ->]]; [apply isleap_spec in H|apply isleap_false in H]; rewrite H; reflexivity.
Qed.
Lemma year_length_fun c y : c <> Yearless -> year_length c y (ylen c y).
Proof.
  intros Hc. unfold year_length, ylen, leapish. destruct c; try congruence; try reflexivity.
  destruct (isleap y) eqn:E; [left; split; [now apply isleap_spec|reflexivity]|right; split; [now apply isleap_false|reflexivity]].
Qed.
Lemma doyf_range c d : c <> Yearless -> valid_date c d -> 1 <= doyf c d <= ylen c (year d).
Proof.
  intros Hc Hv. pose proof (valid_month c d Hc Hv) as Hm. unfold doyf, ylen, leapish. destruct Hv as [_ Hv]. destruct c; try congruence; destruct Hv as (n & Hl & Hd).
  - apply mlen_spec in Hl as [_ ->]. pose proof (month2doy_range (isleap (year d)) (month d) Hm). lia.
  - apply mlen365_spec in Hl as [_ ->]. pose proof (month2doy_range false (month d) Hm). unfold b2z in *. lia.
  - apply mlen360_spec in Hl as [_ ->]. lia.
Qed.

(** every day of the year exists *)
Lemma day_find c y k : c <> Yearless -> 1 <= k <= ylen c y -> exists m d, forall h mi s, 0 <= h < 24 -> 0 <= mi < 60 -> 0 <= s < 60 ->
  valid_date c (mkdate y m d h mi s) /\ doyf c (mkdate y m d h mi s) = k.
Proof.
  intros Hc Hk. destruct c; try congruence; unfold ylen, leapish in Hk.
  - destruct (month_find (isleap y) (k - 1) ltac:(lia)) as (m & _ & Hm & Hr). exists m, (k - month2doy (isleap y) m). intros h mi s Hh Hmi Hs.
    split; [|unfold doyf, leapish; cbn [year month day]; lia]. apply vstd_valid. split; [exact (conj Hh (conj Hmi Hs))|]. cbn [month year day]. lia.
  - unfold b2z in Hk. destruct (month_find false (k - 1) ltac:(unfold b2z; lia)) as (m & _ & Hm & Hr). exists m, (k - month2doy false m). intros h mi s Hh Hmi Hs.
    split; [|unfold doyf, leapish; cbn [year month day]; lia]. apply v365_valid. split; [exact (conj Hh (conj Hmi Hs))|]. cbn [month year day]. lia.
  - exists ((k - 1) / 30 + 1), ((k - 1) mod 30 + 1). intros h mi s Hh Hmi Hs.
    assert (0 <= (k - 1) / 30 < 12) as H1 by (split; [apply Z.div_pos; lia|apply Z.div_lt_upper_bound; lia]).
    pose proof (Z.mod_pos_bound (k - 1) 30 ltac:(lia)) as H2. pose proof (Z.div_mod (k - 1) 30 ltac:(lia)) as H3.
    split; [|unfold doyf; cbn [year month day]; lia]. apply v360_valid. split; [exact (conj Hh (conj Hmi Hs))|]. cbn [month year day]. lia.
Qed.

(** *** days as rational numbers: the day and the second of the day *)
Definition is_day (q : Q) (it : Z * Z) : Prop := 0 <= snd it < 86400 /\ (q == (fst it * 86400 + snd it) # 86400)%Q.
Lemma day_floor q it : is_day q it -> Qfloor q = fst it.
Proof.
  intros [H E]. rewrite (Qfloor_comp _ _ E). unfold Qfloor. rewrite Z.div_add_l by lia. rewrite Z.div_small by lia. lia.
Qed.
Lemma day_le q it d : is_day q it -> fst it <> d -> Qle_bool q (inject_Z d) = (fst it <=? d).
Proof.
  intros [H E] Hd. apply eq_true_iff_eq. rewrite Qle_bool_iff, Z.leb_le, E. unfold Qle, inject_Z; cbn [Qnum Qden]. nia.
Qed.
Lemma day_minus q n s : is_day q (n, s) -> is_day (q - 1)%Q (n - 1, s).
Proof.
  intros [H E]. split; [exact H|]. rewrite E. cbn [fst snd]. unfold Qeq, Qminus, Qplus, Qopp; cbn [Qnum Qden]. lia.
Qed.
Lemma day_plus q n s : is_day q (n, s) -> is_day (q + 1)%Q (n + 1, s).
Proof.
  intros [H E]. split; [exact H|]. rewrite E. cbn [fst snd]. unfold Qeq, Qplus; cbn [Qnum Qden]. lia.
Qed.

Definition drop1 (d : Z) (its : list (Z * Z)) : list (Z * Z) :=
  map (fun '(n, s) => if n <=? d then (n, s) else (n - 1, s)) (filter (fun '(n, _) => negb (n =? d)) its).
Lemma strip_spec d qs its : Forall2 is_day qs its -> Forall2 is_day (strip d qs) (drop1 d its).
Proof.
  unfold strip, drop1. induction 1 as [|q [n s] qs its H _ IH]; [constructor|]. cbn [filter]. rewrite (day_floor _ _ H). cbn [fst].
  destruct (Z.eqb_spec n d) as [E|E]; cbn [negb]; [exact IH|]. cbn [map]. constructor; [|exact IH]. rewrite (day_le _ _ d H) by exact E. cbn [fst].
  destruct (n <=? d); [exact H|now apply day_minus].
Qed.

Definition shift (out : list Z) (n : Z) : Z := n - zlen (filter (fun o => o <? n) out).
Definition left_in (out : list Z) (n : Z) : bool := negb (existsb (Z.eqb n) out).
Definition drop (out : list Z) (its : list (Z * Z)) : list (Z * Z) :=
  map (fun '(n, s) => (shift out n, s)) (filter (fun '(n, _) => left_in out n) its).
Inductive falling : list Z -> Prop :=
| fall_nil : falling []
| fall_cons x l : Forall (fun y => y < x) l -> falling l -> falling (x :: l).

Lemma shift_all l n : Forall (fun y => y < n) l -> filter (fun o => o <? n) l = l.
Proof. induction 1 as [|y l H _ IH]; [reflexivity|]. cbn [filter]. rewrite (proj2 (Z.ltb_lt y n) H), IH. reflexivity. Qed.
Lemma left_in_all l n : Forall (fun y => y < n) l -> left_in l n = true.
Proof.
  intros H. unfold left_in. apply negb_true_iff. apply not_true_is_false. intros E. apply existsb_exists in E as (y & Hy & E). apply Z.eqb_eq in E. subst y.
  rewrite Forall_forall in H. specialize (H _ Hy). lia.
Qed.
Lemma drop_cons d l its : Forall (fun y => y < d) l -> drop l (drop1 d its) = drop (d :: l) its.
Proof.
  intros H. unfold drop, drop1. induction its as [|[n s] its IH]; [reflexivity|]. cbn [filter].
  assert (left_in (d :: l) n = negb (n =? d) && left_in l n) as -> by (unfold left_in; cbn [existsb]; apply negb_orb).
  destruct (Z.eqb_spec n d) as [E|E]; cbn [negb andb]; [exact IH|]. cbn [map]. destruct (Z.leb_spec n d) as [L|L].
  - cbn [filter]. destruct (left_in l n); cbn [map]; [|exact IH]. rewrite IH. f_equal. f_equal. unfold shift. cbn [filter]. rewrite (proj2 (Z.ltb_ge d n)) by lia. reflexivity.
  - assert (Forall (fun y => y < n) l) as H1 by (eapply Forall_impl; [|exact H]; cbn; intros; lia).
    assert (Forall (fun y => y < n - 1) l) as H2 by (eapply Forall_impl; [|exact H]; cbn; intros; lia).
    cbn [filter]. rewrite (left_in_all _ _ H1), (left_in_all _ _ H2). cbn [map]. rewrite IH. f_equal. f_equal. unfold shift. cbn [filter]. rewrite (proj2 (Z.ltb_lt d n)) by lia.
    rewrite (shift_all _ _ H1), (shift_all _ _ H2), zlen_cons. lia.
Qed.
Lemma drop_nil its : drop [] its = its.
Proof.
  induction its as [|[n s] its IH]; [reflexivity|]. transitivity ((shift [] n, s) :: drop [] its); [reflexivity|]. rewrite IH. f_equal. f_equal.
  unfold shift. change (zlen (filter (fun o => o <? n) [])) with 0. lia.
Qed.
Lemma strips_spec : forall ds qs its, falling ds -> Forall2 is_day qs its -> Forall2 is_day (fold_left (fun l d => strip d l) ds qs) (drop ds its).
Proof.
  induction ds as [|d ds IH]; intros qs its Hf H; [now rewrite drop_nil|]. inversion Hf as [|? ? Hd Hf']; subst.
  cbn [fold_left]. rewrite <- drop_cons by exact Hd. apply IH; [exact Hf'|]. now apply strip_spec.
Qed.

Lemma insert_down_perm x l : Permutation (insert_down x l) (x :: l).
Proof. induction l as [|y l IH]; [reflexivity|]. cbn. destruct (y <=? x); [reflexivity|]. rewrite IH. apply perm_swap. Qed.
Lemma insert_down_falling x l : ~ In x l -> falling l -> falling (insert_down x l).
Proof.
  induction l as [|y l IH]; intros Hn Hf; [repeat constructor|]. inversion Hf as [|? ? Hy Hf']; subst. cbn. destruct (Z.leb_spec y x) as [L|L].
  - assert (y < x) by (assert (y <> x) by (intros ->; apply Hn; now left); lia). constructor; [|exact Hf]. constructor; [assumption|]. eapply Forall_impl; [|exact Hy]. cbn; intros; lia.
  - constructor; [|apply IH; [intros H; apply Hn; now right|exact Hf']]. apply (Permutation_Forall (Permutation_sym (insert_down_perm x l))). constructor; [lia|exact Hy].
Qed.
Lemma sorted_down_perm l : Permutation (sorted_down l) l.
Proof. induction l as [|x l IH]; [reflexivity|]. change (sorted_down (x :: l)) with (insert_down x (sorted_down l)). rewrite insert_down_perm. now constructor. Qed.
Lemma sorted_down_falling l : NoDup l -> falling (sorted_down l).
Proof.
  induction 1 as [|x l Hx _ IH]; [constructor|]. change (sorted_down (x :: l)) with (insert_down x (sorted_down l)). apply insert_down_falling; [|exact IH].
  intros H. apply Hx. now apply (Permutation_in _ (sorted_down_perm l)).
Qed.
Lemma filter_perm_len {A} (f : A -> bool) l l' : Permutation l l' -> zlen (filter f l) = zlen (filter f l').
Proof.
  unfold zlen. intros H. f_equal. induction H; cbn; try lia; repeat match goal with |- context [f ?x] => destruct (f x) end; cbn; try lia.
Qed.
Lemma left_in_spec out n : left_in out n = true <-> ~ In n out.
Proof.
  unfold left_in. rewrite negb_true_iff. split.
  - intros H K. assert (existsb (Z.eqb n) out = true) as E; [|congruence]. apply existsb_exists. exists n. split; [exact K|apply Z.eqb_refl].
  - intros H. apply not_true_is_false. intros E. apply existsb_exists in E as (y & Hy & E). apply Z.eqb_eq in E. now subst.
Qed.
Lemma drop_perm l l' its : Permutation l l' -> drop l its = drop l' its.
Proof.
  intros H. unfold drop. assert (forall n, left_in l n = left_in l' n) as E.
  { intros n. apply eq_true_iff_eq. rewrite !left_in_spec. split; intros K1 K2; apply K1; [now apply (Permutation_in _ (Permutation_sym H))|now apply (Permutation_in _ H)]. }
  rewrite (filter_ext _ (fun '(n, _) => left_in l' n)) by (intros [n s]; apply E). apply map_ext. intros [n s]. unfold shift. now rewrite (filter_perm_len _ _ _ H).
Qed.
Lemma stripped out qs its : NoDup out -> Forall2 is_day qs its -> Forall2 is_day (fold_left (fun l d => strip d l) (sorted_down out) qs) (drop out its).
Proof. intros Hn H. rewrite <- (drop_perm _ _ its (sorted_down_perm out)). apply strips_spec; [now apply sorted_down_falling|exact H]. Qed.

(** *** how many days are left out in between *)
Lemma count_between out a b : NoDup out -> a < b -> zlen (filter (fun o => (a <? o) && (o <? b)) out) <= b - a - 1.
Proof.
  intros Hn Hab. pose proof (NoDup_filter (fun o => (a <? o) && (o <? b)) Hn) as H.
  assert (incl (filter (fun o => (a <? o) && (o <? b)) out) (map (fun k => a + 1 + Z.of_nat k) (seq 0 (Z.to_nat (b - a - 1))))) as Hi.
  { intros o Ho. apply filter_In in Ho as [_ Ho]. apply andb_true_iff in Ho as [H1 H2]. apply Z.ltb_lt in H1. apply Z.ltb_lt in H2.
    apply in_map_iff. exists (Z.to_nat (o - a - 1)). split; [lia|]. apply in_seq. lia. }
  pose proof (NoDup_incl_length H Hi) as L. rewrite map_length, seq_length in L. unfold zlen. lia.
Qed.
Lemma filter_split {A} (f g : A -> bool) l : zlen (filter f l) = zlen (filter (fun x => f x && g x) l) + zlen (filter (fun x => f x && negb (g x)) l).
Proof. induction l as [|x l IH]; [reflexivity|]. cbn [filter]. destruct (f x), (g x); cbn [andb negb]; rewrite ?zlen_cons; lia. Qed.
Lemma shift_range out n N : NoDup out -> Forall (fun o => 1 <= o <= N) out -> ~ In n out -> 1 <= n <= N -> 1 <= shift out n <= N - zlen out.
Proof.
  intros Hn Hr Hi Hb. rewrite Forall_forall in Hr. unfold shift. split.
  - pose proof (count_between out 0 n Hn ltac:(lia)) as H. rewrite (filter_ext_in _ (fun o => o <? n)) in H; [lia|].
    intros o Ho. specialize (Hr o Ho). rewrite (proj2 (Z.ltb_lt 0 o)) by lia. reflexivity.
  - pose proof (count_between out n (N + 1) Hn ltac:(lia)) as H.
    assert (zlen out = zlen (filter (fun o => o <? n) out) + zlen (filter (fun o => (n <? o) && (o <? N + 1)) out)) as E; [|lia].
    pose proof (filter_split (fun _ => true) (fun o => o <? n) out) as S. cbn [andb] in S.
    assert (forall l : list Z, filter (fun _ => true) l = l) as T by (induction l as [|x l IH]; [reflexivity|cbn; now rewrite IH]). rewrite T in S. rewrite S. f_equal. f_equal.
    apply filter_ext_in. intros o Ho. specialize (Hr o Ho). assert (o <> n) by (intros ->; contradiction).
    destruct (Z.ltb_spec o n), (Z.ltb_spec n o), (Z.ltb_spec o (N + 1)); try reflexivity; lia.
Qed.
Lemma shift_lt out n n' : NoDup out -> ~ In n out -> n < n' -> shift out n < shift out n'.
Proof.
  intros Hn Hi Hlt. unfold shift. pose proof (count_between out n n' Hn Hlt) as H.
  rewrite (filter_split (fun o => o <? n') (fun o => o <? n)). rewrite (filter_ext_in (fun o => (o <? n') && (o <? n)) (fun o => o <? n)).
  - rewrite (filter_ext_in (fun o => (o <? n') && negb (o <? n)) (fun o => (n <? o) && (o <? n'))); [lia|].
    intros o Ho. assert (o <> n) by (intros ->; contradiction). destruct (Z.ltb_spec o n), (Z.ltb_spec n o), (Z.ltb_spec o n'); try reflexivity; lia.
  - intros o Ho. destruct (Z.ltb_spec o n), (Z.ltb_spec o n'); try reflexivity; lia.
Qed.
Lemma shift_inj out n n' : NoDup out -> ~ In n out -> ~ In n' out -> shift out n = shift out n' -> n = n'.
Proof.
  intros Hn H H' E. destruct (Z.lt_trichotomy n n') as [L|[L|L]]; [|exact L|].
  - pose proof (shift_lt out n n' Hn H L). lia.
  - pose proof (shift_lt out n' n Hn H' L). lia.
Qed.
