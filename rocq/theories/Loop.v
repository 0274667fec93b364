(** Generic while-loop combinator used by every model whose source has an
    unbounded [while].  [loop n step s] runs [step] at most [2^n] times (so
    the fuel [n] is only the *logarithm* of the number of iterations).
    [inl s'] = still running after [2^n] iterations, [inr r] = the loop ended.
    No theorem below treats "still running" as a normal result: each model
    turns it into an explicit error value, and [loop_inv] excludes it. *)
From Coq Require Import ZArith Lia List.
Import ListNotations.
Open Scope Z_scope.

Fixpoint loop {S R : Type} (n : nat) (step : S -> S + R) (s : S) : S + R :=
  match n with
  | O => step s
  | Datatypes.S n' => match loop n' step s with
            | inl s' => loop n' step s'
            | inr r => inr r
            end
  end.

Section Inv.
  Context {S R : Type} (step : S -> S + R) (I : S -> Prop) (f : S -> Z) (Q : R -> Prop).
  Hypothesis Hstep : forall s, I s ->
    match step s with
    | inl s' => I s' /\ 0 <= f s' < f s
    | inr r => Q r
    end.

  Lemma loop_progress : forall n s, I s -> 0 <= f s ->
    match loop n step s with
    | inl s' => I s' /\ 0 <= f s' /\ f s' <= f s - 2 ^ Z.of_nat n
    | inr r => Q r
    end.
  Proof.
    induction n as [|n IH]; intros s Hs Hf.
    - cbn [loop]. specialize (Hstep s Hs). destruct (step s) as [s'|r]; [|exact Hstep].
      change (2 ^ Z.of_nat 0) with 1. destruct Hstep as [H1 H2]. repeat split; auto; lia.
    - cbn [loop]. pose proof (IH s Hs Hf) as H1.
      destruct (loop n step s) as [s'|r]; [|exact H1].
      destruct H1 as (H1 & H2 & H3). pose proof (IH s' H1 H2) as H4.
      destruct (loop n step s') as [s''|r]; [|exact H4].
      destruct H4 as (H4 & H5 & H6). split; [exact H4|]. split; [exact H5|].
      rewrite Nat2Z.inj_succ, Z.pow_succ_r by lia. lia.
  Qed.

  Lemma loop_inv : forall n s, I s -> 0 <= f s < 2 ^ Z.of_nat n ->
    exists r, loop n step s = inr r /\ Q r.
  Proof.
    intros n s Hs Hf. pose proof (loop_progress n s Hs (proj1 Hf)) as H.
    destruct (loop n step s) as [s'|r]; [lia|]. exists r; auto.
  Qed.
End Inv.

(** Fuel large enough for any measure [0 <= m]. *)
Definition fuel_for (m : Z) : nat := Z.to_nat (Z.log2 m + 1).

Lemma fuel_for_ok m : 0 <= m -> m < 2 ^ Z.of_nat (fuel_for m).
Proof.
  intros H. unfold fuel_for. rewrite Z2Nat.id by (pose proof (Z.log2_nonneg m); lia).
  destruct (Z.eq_dec m 0) as [->|Hn]; [reflexivity|].
  pose proof (Z.log2_spec m ltac:(lia)) as Hs.
  replace (Z.log2 m + 1) with (Z.succ (Z.log2 m)) by lia. lia.
Qed.
