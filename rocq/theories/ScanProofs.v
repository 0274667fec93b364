(** Proofs about reading scanned files. *)
From Coq Require Import ZArith List Bool Sorted Lia.
From Verif Require Import IndexModel DomainModel DomainProofs ScanModel ScanSpec.
Import ListNotations.
Open Scope Z_scope.

Lemma nth_at (l : list Z) i x : nth_error l i = Some x -> at_ l i = x.
Proof. intros H. unfold at_. now apply nth_error_nth. Qed.
Lemma at_nth (l : list Z) i : (i < List.length l)%nat -> nth_error l i = Some (at_ l i).
Proof. intros H. unfold at_. now apply nth_error_nth'. Qed.
Lemma rising_at l i j : rising l -> (i < j < List.length l)%nat -> at_ l i < at_ l j.
Proof.
  intros S. revert i j. induction S as [|x l S IH F]; intros i j H; cbn in H; [lia|]. destruct j as [|j]; [lia|]. rewrite Forall_forall in F. destruct i as [|i].
  - cbn. apply F. apply nth_In. lia.
  - cbn. apply IH. lia.
Qed.
Lemma falling_at l i j : falling l -> (i < j < List.length l)%nat -> at_ l j < at_ l i.
Proof.
  intros S. revert i j. induction S as [|x l S IH F]; intros i j H; cbn in H; [lia|]. destruct j as [|j]; [lia|]. rewrite Forall_forall in F. destruct i as [|i].
  - cbn. apply F. apply nth_In. lia.
  - cbn. apply IH. lia.
Qed.

(** ** bisection *)
Lemma div2_lt n : (0 < n)%nat -> (Nat.div2 n < n)%nat.
Proof. intros H. apply Nat.lt_div2. exact H. Qed.
(** what bisection does for any list *)
Lemma bisect_spec fuel arr key : forall lo hi, (lo <= hi)%nat -> (hi - lo < fuel)%nat -> exists r, bisect fuel arr key lo hi = (r, r) /\ (lo <= r <= hi)%nat /\
  (r = lo \/ at_ arr (r - 1) < key) /\ (r = hi \/ key <= at_ arr r).
Proof.
  induction fuel as [|f IH]; intros lo hi H1 H2; [lia|]. cbn [bisect]. destruct (Nat.ltb lo hi) eqn:E.
  - apply Nat.ltb_lt in E. cbv zeta. pose proof (div2_lt (hi - lo)) as D. remember (lo + Nat.div2 (hi - lo))%nat as mid. assert (Hm : (lo <= mid < hi)%nat) by lia.
    destruct (at_ arr mid <? key) eqn:K.
    + apply Z.ltb_lt in K. destruct (IH (S mid) hi) as (r & -> & B & C1 & C2); [lia | lia|]. exists r. split; [reflexivity|]. split; [lia|]. split; [|exact C2]. right. destruct C1 as [->|C1]; [|exact C1]. replace (S mid - 1)%nat with mid by lia. exact K.
    + apply Z.ltb_ge in K. destruct (IH lo mid) as (r & -> & B & C1 & C2); [lia | lia|]. exists r. split; [reflexivity|]. split; [lia|]. split; [exact C1|]. right. destruct C2 as [->|C2]; [exact K | exact C2].
  - apply Nat.ltb_ge in E. assert (lo = hi) by lia. subst. exists hi. repeat split; auto.
Qed.
Definition rank (arr : list Z) (k : Z) : nat := List.length (filter (fun x => x <? k) arr).
Lemma rank_le arr k : (rank arr k <= List.length arr)%nat.
Proof. unfold rank. induction arr as [|x l IH]; cbn; [lia|]. destruct (x <? k); cbn; lia. Qed.
Lemma rank_spec arr k : rising arr -> (forall j, (j < rank arr k)%nat -> at_ arr j < k) /\ (forall j, (rank arr k <= j < List.length arr)%nat -> k <= at_ arr j).
Proof.
  induction 1 as [|x l S IH F]; [split; intros j Hj; cbn in Hj; lia|]. unfold rank in *. cbn [filter]. destruct (x <? k) eqn:E.
  - apply Z.ltb_lt in E. split; intros [|j] Hj; cbn [List.length] in *; [exact E | cbn; apply IH; lia | lia | cbn; apply IH; lia].
  - apply Z.ltb_ge in E. assert (R : filter (fun y => y <? k) l = []).
    { rewrite Forall_forall in F. destruct (filter (fun y => y <? k) l) as [|y t] eqn:G; [reflexivity|]. exfalso. assert (Hy : In y (filter (fun y => y <? k) l)) by (rewrite G; now left).
      apply filter_In in Hy as [Hy Hk]. apply Z.ltb_lt in Hk. specialize (F y Hy). lia. }
    rewrite R in *. cbn [List.length] in *. split; intros j Hj; [lia|]. destruct j as [|j]; [exact E|]. cbn. apply IH. lia.
Qed.
Lemma search_rank arr : rising arr -> forall keys last lo hi, (lo <= hi <= List.length arr)%nat -> (forall j, (j < lo)%nat -> at_ arr j < last) -> (forall j, (hi <= j < List.length arr)%nat -> last <= at_ arr j) ->
  search_keys arr last lo hi keys = map (rank arr) keys.
Proof.
  intros S. induction keys as [|k keys IH]; intros last lo hi B L H; [reflexivity|]. cbn [search_keys map].
  assert (Q : exists lo' hi', (if last <? k then (lo, List.length arr) else (0%nat, if Nat.ltb hi (List.length arr) then Datatypes.S hi else List.length arr)) = (lo', hi') /\
    (lo' <= hi' <= List.length arr)%nat /\ (forall j, (j < lo')%nat -> at_ arr j < k) /\ (forall j, (hi' <= j < List.length arr)%nat -> k <= at_ arr j)).
  { destruct (last <? k) eqn:E.
    - apply Z.ltb_lt in E. eexists _, _. split; [reflexivity|]. split; [lia|]. split; [intros j Hj; specialize (L j Hj); lia | intros j Hj; lia].
    - apply Z.ltb_ge in E. destruct (Nat.ltb hi (List.length arr)) eqn:F; [apply Nat.ltb_lt in F | apply Nat.ltb_ge in F]; eexists _, _; (split; [reflexivity|]; split; [lia|]; split; [intros j Hj; lia|]).
      + intros j Hj. assert (G : last <= at_ arr j) by (apply H; lia). lia.
      + intros j Hj. lia. }
  destruct Q as (lo' & hi' & -> & B' & L' & H').
  destruct (bisect_spec (Datatypes.S (List.length arr)) arr k lo' hi') as (r & -> & Br & C1 & C2); [lia | lia|].
  destruct (rank_spec arr k S) as [R1 R2]. pose proof (rank_le arr k) as Rl.
  assert (Er : r = rank arr k).
  { destruct (Nat.lt_trichotomy r (rank arr k)) as [Lt|[Eq|Gt]]; [|exact Eq|]; exfalso.
    - specialize (R1 r Lt). assert (Q : k <= at_ arr r) by (destruct C2 as [->|C2]; [apply H'; lia | exact C2]). lia.
    - assert (Q : at_ arr (r - 1) < k) by (destruct C1 as [->|C1]; [apply L'; lia | exact C1]). assert (k <= at_ arr (r - 1)) by (apply R2; lia). lia. }
  subst r. f_equal. apply IH; [lia | exact R1 | exact R2].
Qed.
Lemma searchsorted_rank arr keys : rising arr -> searchsorted arr keys = map (rank arr) keys.
Proof. intros S. unfold searchsorted. apply search_rank; auto; intros; lia. Qed.
Lemma rank_found arr k : rising arr -> (In k arr <-> (rank arr k < List.length arr)%nat /\ at_ arr (rank arr k) = k).
Proof.
  intros S. destruct (rank_spec arr k S) as [R1 R2]. split.
  - intros H. apply In_nth_error in H as [j Hj]. assert (Lj : (j < List.length arr)%nat) by (apply nth_error_Some; congruence). apply nth_at in Hj.
    assert (E : j = rank arr k).
    { destruct (Nat.lt_trichotomy j (rank arr k)) as [Lt|[Eq|Gt]]; [specialize (R1 j Lt); lia | exact Eq|]. exfalso.
      assert (at_ arr (rank arr k) < at_ arr j) by (apply rising_at; [exact S | lia]). assert (k <= at_ arr (rank arr k)) by (apply R2; lia). lia. }
    subst j. auto.
  - intros [H1 H2]. rewrite <- H2. apply nth_In. exact H1.
Qed.
(** a falling list with at least two elements, and falling keys: nothing is found *)
Lemma falling_search arr : falling arr -> (2 <= List.length arr)%nat -> forall keys last lo hi,
  (lo <= hi <= List.length arr)%nat -> falling keys -> Forall (fun k => k <= last) keys -> (hi = List.length arr \/ Forall (fun k => k < at_ arr 0) keys) ->
  Forall2 (fun k r => r = List.length arr \/ at_ arr r <> k) keys (search_keys arr last lo hi keys).
Proof.
  intros S L2. induction keys as [|k keys IH]; intros last lo hi B Fk Fl C; [constructor|]. cbn [search_keys]. inversion Fl as [|? ? Hk Fl']; subst. inversion Fk as [|? ? Fk' Fk'']; subst.
  replace (last <? k) with false by (symmetry; apply Z.ltb_ge; exact Hk).
  remember (if Nat.ltb hi (List.length arr) then Datatypes.S hi else List.length arr) as hi'.
  assert (Bh : (1 <= hi' <= List.length arr)%nat) by (subst hi'; destruct (Nat.ltb hi (List.length arr)) eqn:E; [apply Nat.ltb_lt in E|]; lia).
  destruct (bisect_spec (Datatypes.S (List.length arr)) arr k 0 hi') as (r & Er & Br & C1 & C2); [lia | lia|]. rewrite Er.
  assert (N : r = List.length arr \/ at_ arr r <> k).
  { destruct (Nat.eq_dec r (List.length arr)) as [E|N]; [now left | right]. destruct r as [|r].
    - destruct C as [->|C]; [|inversion C; subst; lia]. intros Ek. assert (hi' = List.length arr) by (subst hi'; now rewrite Nat.ltb_irrefl). clear Heqhi'. subst hi'.
      cbn [bisect] in Er. replace (Nat.ltb 0 (List.length arr)) with true in Er by (symmetry; apply Nat.ltb_lt; lia). cbv zeta in Er.
      assert (D : (1 <= 0 + Nat.div2 (List.length arr - 0) < List.length arr)%nat) by (pose proof (div2_lt (List.length arr - 0)); destruct arr as [|u [|v arr]]; cbn in L2; try lia; cbn in *; lia).
      revert D Er. generalize (0 + Nat.div2 (List.length arr - 0))%nat. intros mid D Er.
      assert (Km : at_ arr mid < k) by (rewrite <- Ek; apply falling_at; [exact S | lia]). apply Z.ltb_lt in Km. rewrite Km in Er.
      destruct (bisect_spec (List.length arr) arr k (Datatypes.S mid) (List.length arr)) as (r & Er' & Br' & _); [lia | lia|]. rewrite Er' in Er. injection Er as Er. lia.
    - destruct C1 as [C1|C1]; [lia|]. replace (Datatypes.S r - 1)%nat with r in C1 by lia. assert (at_ arr (Datatypes.S r) < at_ arr r) by (apply falling_at; [exact S | lia]). lia. }
  constructor; [exact N|]. apply IH; [lia | exact Fk' | eapply Forall_impl; [|exact Fk'']; cbn; intros; lia|].
  destruct (Z.lt_ge_cases (at_ arr 0) k) as [G|G].
  - left. destruct C as [->|C]; [|inversion C; subst; lia]. assert (hi' = List.length arr) by (subst hi'; now rewrite Nat.ltb_irrefl). clear Heqhi'. subst hi'.
    destruct C2 as [C2|C2]; [exact C2|]. destruct (Nat.eq_dec r (List.length arr)) as [E|Ne]; [exact E|]. exfalso. destruct r as [|r]; [lia|].
    assert (at_ arr (Datatypes.S r) < at_ arr 0) by (apply falling_at; [exact S | lia]). lia.
  - right. eapply Forall_impl; [|exact Fk'']. cbn. intros x Hx. lia.
Qed.
