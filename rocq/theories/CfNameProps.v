(** C51: variable names made fit for a file. *)
From Coq Require Import ZArith List Bool Ascii String Lia.
From Verif Require Import CfModel CfAxisSpec CfText.
Import ListNotations.
Open Scope Z_scope.

Definition okc (a : ascii) : bool := between 97 122 a || between 65 90 a || between 48 57 a || (code a =? 95).
Fixpoint finds (c : ascii) (s : string) : bool := match s with EmptyString => false | String a r => Ascii.eqb a c || finds c r end.
Lemma finds_one c s : finds c s = true <-> one_of c s.
Proof.
  induction s as [|a s IH]; cbn [finds].
  - split; [discriminate|]. intros [n H]. destruct n; discriminate.
  - rewrite orb_true_iff, IH. split.
    + intros [H|[n H]]; [apply Ascii.eqb_eq in H; subst; exists 0%nat; reflexivity|exists (S n); exact H].
    + intros [[|n] H]; [left; cbn in H; injection H as ->; apply Ascii.eqb_refl|right; exists n; exact H].
Qed.
Lemma okc_one c : okc c = true <-> one_of c (letters ++ "0123456789_").
Proof. rewrite <- finds_one. destruct c as [[] [] [] [] [] [] [] []]; vm_compute; tauto. Qed.
Lemma okc_first c : okc c = true /\ is_digit c = false <-> one_of c (letters ++ "_").
Proof. rewrite <- finds_one. destruct c as [[] [] [] [] [] [] [] []]; vm_compute; intuition congruence. Qed.
Lemma fix_ok c : okc (fix_char c) = true.
Proof. destruct c as [[] [] [] [] [] [] [] []]; reflexivity. Qed.
Lemma fix_id c : okc c = true -> fix_char c = c.
Proof. destruct c as [[] [] [] [] [] [] [] []]; vm_compute; congruence. Qed.
Lemma get_every p s : every p s = true <-> forall n c, String.get n s = Some c -> p c = true.
Proof.
  induction s as [|a s IH]; cbn [every].
  - split; auto. intros _ n c H. destruct n; discriminate.
  - rewrite andb_true_iff, IH. split.
    + intros [H1 H2] [|n] c H; cbn in H; [congruence|eauto].
    + intros H. split; [apply (H 0%nat); reflexivity|]. intros n c Hn. apply (H (S n) c Hn).
Qed.
Lemma legal_iff s : legal s <-> every okc s = true /\ exists a r, s = String a r /\ is_digit a = false.
Proof.
  unfold legal. rewrite get_every. split.
  - intros [H (c & H0 & H1)]. split; [intros n a Ha; apply okc_one, (H n a Ha)|]. destruct s as [|a r]; [discriminate|]. cbn in H0. injection H0 as ->. exists c, r. split; auto. apply okc_first, H1.
  - intros [H (a & r & -> & D)]. split; [intros n c Hc; apply okc_one, (H n c Hc)|]. exists a. split; [reflexivity|]. apply okc_first. split; auto. apply (H 0%nat). reflexivity.
Qed.
Lemma fix_chars_ok s : every okc (fix_chars s) = true.
Proof. induction s; cbn; auto. rewrite fix_ok. exact IHs. Qed.
Lemma fix_chars_id s : every okc s = true -> fix_chars s = s.
Proof. induction s as [|a s IH]; cbn; auto. rewrite andb_true_iff. intros [A B]. rewrite fix_id, IH; auto. Qed.

(** Every name that is not empty gets a legal name; *)
Theorem C51_legal : forall s, s <> ""%string -> exists n, fix_name s = Some n /\ legal n.
Proof.
  intros s H. unfold fix_name. assert (K := fix_chars_ok s). destruct s as [|a s]; [congruence|]. cbn [fix_chars] in *.
  destruct (is_digit (fix_char a)) eqn:D; eexists; (split; [reflexivity|]); apply legal_iff.
  - split; [cbn [every]; cbn [every] in K; rewrite K; reflexivity|]. eexists _, _. split; [reflexivity|reflexivity].
  - split; [exact K|]. eexists _, _. split; [reflexivity|exact D].
Qed.
(** legal names stay as they are (so that doing it twice changes nothing more); *)
Theorem C51_unchanged : forall s, legal s -> fix_name s = Some s.
Proof.
  intros s H. apply legal_iff in H. destruct H as (H & a & r & -> & D). unfold fix_name. rewrite (fix_chars_id _ H), D. reflexivity.
Qed.
Theorem C51_idempotent : forall s n, fix_name s = Some n -> fix_name n = Some n.
Proof.
  intros s n H. apply C51_unchanged. assert (Ne : s <> ""%string) by (intros ->; discriminate). destruct (C51_legal s Ne) as (m & E & L). congruence.
Qed.
(** letters, digits and underscores stay where they are, anything else becomes an underscore, and at most one underscore is put in front. *)
Theorem C51_characters : forall s n, fix_name s = Some n -> exists p, (n = p \/ n = ("_" ++ p)%string) /\ String.length p = String.length s /\
  forall i c, String.get i s = Some c -> String.get i p = Some c /\ one_of c (letters ++ "0123456789_") \/ String.get i p = Some "_"%char /\ ~ one_of c (letters ++ "0123456789_").
Proof.
  intros s n H. exists (fix_chars s). split; [|split].
  - unfold fix_name in H. destruct (fix_chars s); [discriminate|]. destruct (is_digit a); injection H as <-; auto.
  - clear H. induction s; cbn; congruence.
  - clear H. induction s as [|a s IH]; intros [|i] c Hc; try discriminate; cbn [fix_chars String.get] in *; [|apply IH, Hc].
    injection Hc as ->. destruct (okc c) eqn:E.
    + left. rewrite (fix_id c E). split; auto. apply okc_one, E.
    + right. split; [|intros X; apply okc_one in X; congruence]. f_equal. revert E. destruct c as [[] [] [] [] [] [] [] []]; vm_compute; congruence.
Qed.
(** Different names can become one. *)
Theorem C51_distinct_refuted : exists s t n, s <> t /\ fix_name s = Some n /\ fix_name t = Some n.
Proof. exists "u wind"%string, "u_wind"%string. eexists. split; [discriminate|]. split; reflexivity. Qed.
Theorem C51_empty_refuted : fix_name "" = None.
Proof. reflexivity. Qed.
Example C51_example : fix_name "2m temp (K)" = Some "_2m_temp__K_"%string /\ legal "_2m_temp__K_".
Proof. split; [reflexivity|]. apply legal_iff. split; [reflexivity|]. eexists _, _. split; reflexivity. Qed.
Print Assumptions C51_characters.
