(** Proofs about StationModel.v *)
From Coq Require Import ZArith List Bool QArith_base Ascii String Lia Permutation.
From Verif Require Import CalModel TimeSearchModel IndexModel ArrModel AxisModel ClimModel ViewModel StencilModel CfModel StationModel.
Import ListNotations.
Open Scope Z_scope.
Open Scope list_scope.

(** ** strings *)
Lemma unsuffix_app suf n : unsuffix suf (n ++ suf) = Some n.
Proof.
  induction n as [|a n IH]; cbn [String.append].
  - destruct suf; cbn [unsuffix]; rewrite ?String.eqb_refl; reflexivity.
  - cbn [unsuffix]. destruct (String.eqb_spec (String a (n ++ suf)) suf) as [E|_].
    + exfalso. assert (String.length (String a (n ++ suf)) = String.length suf) as H by now rewrite E. cbn [String.length] in H.
      assert (forall x y, String.length (x ++ y) = (String.length x + String.length y)%nat) as L by (induction x as [|b x IHx]; intros y; cbn; [reflexivity|now rewrite IHx]). rewrite L in H. lia.
    + now rewrite IH.
Qed.
Lemma text_chars s : text_of (chars s) = s.
Proof. induction s as [|a s IH]; cbn; [reflexivity|now rewrite IH]. Qed.
(** a string without the characters of code zero *)
Definition no_zero (s : string) : string := text_of (filter (fun a => negb (Ascii.eqb a zero)) (chars s)).
Lemma filter_padding n : filter (fun a => negb (Ascii.eqb a zero)) (repeat zero n) = [].
Proof. induction n as [|n IH]; [reflexivity|]. cbn [repeat filter]. rewrite Ascii.eqb_refl. exact IH. Qed.
Lemma last_app {A} (l : list A) x d : last (l ++ [x]) d = x.
Proof. induction l as [|a l IH]; [reflexivity|]. cbn [app last]. destruct (l ++ [x]) eqn:E; [destruct l; discriminate|exact IH]. Qed.

Definition usable (s : string) : Prop := forall a, In a (chars s) -> code a < 128 /\ a <> zero.
Lemma no_zero_usable s : (forall a, In a (chars s) -> a <> zero) -> no_zero s = s.
Proof.
  intros H. unfold no_zero. replace (filter _ (chars s)) with (chars s); [apply text_chars|]. induction (chars s) as [|a l IH]; [reflexivity|]. cbn [filter].
  destruct (Ascii.eqb_spec a zero) as [E|_]; [exfalso; apply (H a); [now left|exact E]|]. cbn. f_equal. apply IH. intros b Hb. apply H. now right.
Qed.
Lemma longest_pos l : (0 < longest l)%nat <-> exists s, In s l /\ s <> EmptyString.
Proof.
  induction l as [|s l IH]; cbn [longest fold_right]; [split; [lia|intros (s & [] & _)]|]. change (fold_right _ 0%nat l) with (longest l). split.
  - intros H. destruct s as [|a s]; [|exists (String a s); split; [now left|discriminate]]. cbn [String.length Nat.max] in H. apply IH in H as (t & Ht & Hn). exists t. split; [now right|exact Hn].
  - intros (t & [<-|Ht] & Hn); [destruct s; [now destruct Hn|cbn [String.length]; lia]|]. assert (0 < longest l)%nat by (apply IH; now exists t). lia.
Qed.
Lemma encode_string_text v l : v_data v = Text l -> (exists s, In s l /\ s <> EmptyString) -> (forall s a, In s l -> In a (chars s) -> code a < 128) ->
  exists w, encode_string_var v = Some w /\ is_coded w = true /\ decode_string_var w = Some (SVar (v_name v) (v_dims v) (Text (map no_zero l)) None None) /\
    exists rows, v_data w = Chars rows /\ Forall (fun r => List.length r = longest l) rows.
Proof.
  intros Hv Hl Ha. unfold encode_string_var. rewrite Hv. apply longest_pos in Hl as Hn. destruct (Nat.ltb_spec 0 (longest l)); [|lia].
  replace (forallb _ l) with true; [|symmetry; apply forallb_forall; intros s Hs; apply forallb_forall; intros a Hin; apply Z.ltb_lt; eauto]. cbn [andb].
  eexists. split; [reflexivity|]. split; [|split].
  - unfold is_coded. cbn [v_name v_data v_dims]. rewrite unsuffix_app, map_app. cbn [map]. now rewrite last_app, unsuffix_app.
  - unfold decode_string_var. cbn [v_name v_data v_dims]. rewrite unsuffix_app, removelast_last, map_map.
    replace (forallb _ (map _ l)) with true.
    + do 2 f_equal. f_equal. apply map_ext. intros s. unfold no_zero. now rewrite filter_app, filter_padding, app_nil_r.
    + symmetry. apply forallb_forall. intros r Hr. apply in_map_iff in Hr as (s & <- & Hs). apply forallb_forall. intros a Hin. apply in_app_iff in Hin as [Hin|Hin]; [apply Z.ltb_lt; eauto|].
      apply repeat_spec in Hin. subst a. reflexivity.
  - eexists. split; [reflexivity|]. apply Forall_forall. intros r Hr. apply in_map_iff in Hr as (s & <- & Hs). rewrite app_length, repeat_length.
    assert (List.length (chars s) = String.length s) as -> by (clear; induction s as [|a s IH]; cbn; [reflexivity|now rewrite IH]).
    assert (String.length s <= longest l)%nat; [|lia]. clear -Hs. induction l as [|t l IH]; [destruct Hs|]. cbn [longest fold_right]. change (fold_right _ 0%nat l) with (longest l). destruct Hs as [->|Hs]; [lia|]. specialize (IH Hs). lia.
Qed.

(** ** words *)
Definition word (s : string) : Prop := s <> EmptyString /\ forall a, In a (chars s) -> is_space a = false.
Lemma words_word s : word s -> words s = [s].
Proof.
  intros [Hne Hs]. induction s as [|a s IH]; [now destruct Hne|]. cbn [words]. rewrite (Hs a (or_introl eq_refl)). destruct s as [|b s]; [reflexivity|].
  rewrite (Hs b (or_intror (or_introl eq_refl))). rewrite IH; [reflexivity|discriminate|]. intros c Hc. apply Hs. now right.
Qed.
Lemma words_app s t : word s -> words (s ++ String " " t) = s :: words t.
Proof.
  intros [Hne Hs]. induction s as [|a s IH]; [now destruct Hne|]. cbn [String.append]. cbn [words]. rewrite (Hs a (or_introl eq_refl)). destruct s as [|b s].
  - cbn [String.append]. cbn. reflexivity.
  - cbn [String.append] in *. rewrite (Hs b (or_intror (or_introl eq_refl))). rewrite IH; [reflexivity|discriminate|]. intros c Hc. apply Hs. now right.
Qed.
Lemma words_join l : Forall word l -> words (join l) = l.
Proof.
  induction 1 as [|s l Hs _ IH]; [reflexivity|]. destruct l as [|t l]; [now apply words_word|]. change (join (s :: t :: l)) with (s ++ String " " (join (t :: l)))%string. now rewrite words_app, IH.
Qed.
Lemma listed_join l : Forall word l -> listed (if String.eqb (join l) "" then None else Some (join l)) = l.
Proof.
  intros H. rewrite <- (words_join l H) at 3. destruct (String.eqb_spec (join l) "") as [->|_]; reflexivity.
Qed.

(** ** pieces *)
Lemma strip_some p s r : strip p s = Some r -> s = (p ++ r)%string.
Proof.
  revert s. induction p as [|a p IH]; intros s H; cbn [strip] in H; [injection H as ->; reflexivity|]. destruct s as [|b s]; [discriminate|]. destruct (Ascii.eqb_spec a b) as [->|_]; [|discriminate].
  cbn [String.append]. f_equal. now apply IH.
Qed.
Definition piece (k s : string) : Prop := exists u v, s = (u ++ k ++ v)%string.
Lemma contains_piece k s : contains k s = true -> piece k s.
Proof.
  induction s as [|a s IH]; cbn [contains].
  - destruct (strip k "") as [r|] eqn:E; [|discriminate]. intros _. exists EmptyString, r. cbn [String.append]. now apply strip_some.
  - destruct (strip k (String a s)) as [r|] eqn:E.
    + intros _. exists EmptyString, r. cbn [String.append]. now apply strip_some.
    + intros H. apply IH in H as (u & v & ->). exists (String a u), v. reflexivity.
Qed.

(** ** dictionaries *)
Lemma put_new {A} k (v : A) d : lookup k d = None -> put k v d = d ++ [(k, v)].
Proof. induction d as [|[x w] d IH]; cbn [lookup put app]; [reflexivity|]. destruct (String.eqb k x); [discriminate|]. intros H. now rewrite IH. Qed.
Lemma lookup_in {A} k (v : A) d : NoDup (map fst d) -> In (k, v) d -> lookup k d = Some v.
Proof.
  induction d as [|[x w] d IH]; intros Hn Hin; [destruct Hin|]. cbn [lookup map fst] in *. inversion Hn; subst. destruct Hin as [[= -> ->]|Hin]; [now rewrite String.eqb_refl|].
  destruct (String.eqb_spec k x) as [->|_]; [|now apply IH]. exfalso. apply H1. apply in_map_iff. now exists (x, v).
Qed.
Lemma lookup_some {A} k (v : A) d : lookup k d = Some v -> In (k, v) d.
Proof. induction d as [|[x w] d IH]; cbn [lookup]; [discriminate|]. destruct (String.eqb_spec k x) as [->|_]; [intros [= ->]; now left|]. intros H. right. now apply IH. Qed.
Lemma lookup_none {A} k (d : list (string * A)) : ~ In k (map fst d) -> lookup k d = None.
Proof. intros H. destruct (lookup k d) as [v|] eqn:E; [|reflexivity]. exfalso. apply H. apply lookup_some in E. apply in_map_iff. now exists (k, v). Qed.
Lemma fold_put {A} (l d : list (string * A)) : NoDup (map fst (d ++ l)) -> fold_left (fun d kv => put (fst kv) (snd kv) d) l d = d ++ l.
Proof.
  revert d. induction l as [|[k v] l IH]; intros d H; cbn [fold_left]; [now rewrite app_nil_r|]. cbn [fst snd]. rewrite put_new.
  - rewrite IH; rewrite <- app_assoc; [reflexivity|exact H].
  - apply lookup_none. rewrite map_app in H. cbn [map fst] in H. apply NoDup_remove_2 in H. intros K. apply H. apply in_app_iff. now left.
Qed.
