From Coq Require Import ZArith List Bool QArith_base QArith Qabs Permutation Sorted Lia Lqa.
From Verif Require Import SortModel SortSpec.
Import ListNotations.
Open Scope Z_scope.

Lemma Qle_bool_false x y : Qle_bool x y = false <-> (y < x)%Q.
Proof.
  split; intros H.
  - apply Qnot_le_lt. intros K. apply Qle_bool_iff in K. congruence.
  - destruct (Qle_bool x y) eqn:E; [|reflexivity]. apply Qle_bool_iff in E. exfalso. lra.
Qed.

Lemma elem_in {A} (l : list A) x : In x l <-> exists i, elem l i x.
Proof.
  split.
  - intros H. apply In_nth_error in H as [n H]. exists (Z.of_nat n). split; [lia|]. now rewrite Nat2Z.id.
  - intros (i & _ & H). eapply nth_error_In; eassumption.
Qed.

Lemma elem_fun {A} (l : list A) i x y : elem l i x -> elem l i y -> x = y.
Proof. intros [_ H] [_ K]. congruence. Qed.

Lemma elem_nil {A} i (x : A) : ~ elem [] i x.
Proof. intros [_ H]. destruct (Z.to_nat i); discriminate. Qed.

Lemma elem_cons {A} (a : A) l i x : elem (a :: l) i x <-> (i = 0 /\ x = a) \/ elem l (i - 1) x.
Proof.
  unfold elem. split.
  - intros [H1 H2]. destruct (Z.eq_dec i 0) as [->|Hn]; [left; cbn in H2; split; congruence|].
    right. split; [lia|]. replace (Z.to_nat i) with (S (Z.to_nat (i - 1))) in H2 by lia. exact H2.
  - intros [[-> ->]|[H1 H2]]; [split; [lia|reflexivity]|]. split; [lia|].
    replace (Z.to_nat i) with (S (Z.to_nat (i - 1))) by lia. exact H2.
Qed.

Lemma elem_len {A} (l : list A) i x : elem l i x -> 0 <= i < Z.of_nat (length l).
Proof. intros [H1 H2]. assert (nth_error l (Z.to_nat i) <> None) as K by congruence. apply nth_error_Some in K. lia. Qed.

Lemma elem_ex {A} (l : list A) i : 0 <= i < Z.of_nat (length l) -> exists x, elem l i x.
Proof.
  intros H. destruct (nth_error l (Z.to_nat i)) as [x|] eqn:E; [exists x; split; [lia|exact E]|].
  apply nth_error_None in E. lia.
Qed.

Lemma ss_elem {A} (R : A -> A -> Prop) l : StronglySorted R l ->
  forall i j x y, elem l i x -> elem l j y -> i < j -> R x y.
Proof.
  induction 1 as [|a l Hs IH Hf]; intros i j x y Hi Hj Hl.
  - destruct (elem_nil _ _ Hi).
  - apply elem_cons in Hi. apply elem_cons in Hj. destruct Hi as [[-> ->]|Hi], Hj as [[-> ->]|Hj].
    + lia.
    + rewrite Forall_forall in Hf. apply Hf. apply elem_in; eauto.
    + apply elem_len in Hi. lia.
    + eapply IH; [exact Hi|exact Hj|lia].
Qed.

Lemma elem_ss {A} (R : A -> A -> Prop) l :
  (forall i j x y, elem l i x -> elem l j y -> i < j -> R x y) -> StronglySorted R l.
Proof.
  induction l as [|a l IH]; intros H; constructor.
  - apply IH. intros i j x y Hi Hj Hl. apply (H (i + 1) (j + 1)); [| |lia]; apply elem_cons; right;
      [replace (i + 1 - 1) with i by lia|replace (j + 1 - 1) with j by lia]; assumption.
  - apply Forall_forall. intros x Hx. apply elem_in in Hx as (i & Hi). apply (H 0 (i + 1)).
    + apply elem_cons; now left.
    + apply elem_cons; right. replace (i + 1 - 1) with i by lia. exact Hi.
    + apply elem_len in Hi. lia.
Qed.

(** *** positions *)
Lemma index_from_app k a b : index_from k (a ++ b) = index_from k a ++ index_from (k + Z.of_nat (length a)) b.
Proof.
  revert k; induction a as [|x a IH]; intros k; cbn [app index_from length].
  - f_equal; lia.
  - rewrite IH. cbn [app]. do 3 f_equal. lia.
Qed.

Lemma index_from_range k a x i : In (x, i) (index_from k a) -> k <= i < k + Z.of_nat (length a).
Proof.
  revert k; induction a as [|y a IH]; intros k; cbn [index_from In length]; [intros []|].
  intros [H|H]; [injection H as _ <-; lia|]. apply IH in H. lia.
Qed.

Lemma index_from_elem k a x i : In (x, i) (index_from k a) <-> elem a (i - k) x.
Proof.
  revert k; induction a as [|y a IH]; intros k; cbn [index_from In].
  - split; [intros []|]. intros H. destruct (elem_nil _ _ H).
  - rewrite elem_cons, IH. replace (i - k - 1) with (i - (k + 1)) by lia.
    split; (intros [H|H]; [left|right; exact H]).
    + injection H as <- <-. split; [lia|reflexivity].
    + destruct H as [H <-]. f_equal. lia.
Qed.

Lemma index_from_pos k a : index_from k a = combine a (map (fun n => k + Z.of_nat n) (seq 0 (length a))).
Proof.
  revert k; induction a as [|x a IH]; intros k; [reflexivity|]. cbn [index_from length seq map combine].
  f_equal; [f_equal; lia|]. rewrite IH. f_equal. rewrite <- seq_shift, map_map. apply map_ext. intros n. lia.
Qed.

Lemma index_from_positions a : index_from 0 a = with_positions a.
Proof. rewrite index_from_pos. reflexivity. Qed.

Lemma index_from_map_snd k a : map snd (index_from k a) = map (fun n => k + Z.of_nat n) (seq 0 (length a)).
Proof.
  revert k; induction a as [|x a IH]; intros k; [reflexivity|]. cbn [index_from length seq map snd].
  f_equal; [lia|]. rewrite IH. rewrite <- seq_shift, map_map. apply map_ext. intros n. lia.
Qed.

Lemma index_from_NoDup k a : NoDup (map snd (index_from k a)).
Proof. rewrite index_from_map_snd. apply FinFun.Injective_map_NoDup; [intros x y; lia|apply seq_NoDup]. Qed.

(** *** merge *)
Lemma merge_nil_r l : merge l [] = l.
Proof. induction l; cbn; congruence. Qed.

Lemma merge_perm l r : Permutation (merge l r) (l ++ r).
Proof.
  revert r; induction l as [|x l IH]; intros r.
  - induction r as [|y r IHr]; cbn; [constructor|]. constructor. exact IHr.
  - induction r as [|y r IHr].
    + rewrite merge_nil_r, app_nil_r. reflexivity.
    + cbn. destruct (Qle_bool (fst x) (fst y)).
      * constructor. apply IH.
      * eapply perm_trans; [apply perm_skip, IHr|]. apply (Permutation_middle (x :: l) r y).
Qed.

Definition R (x y : Q * Z) : Prop := (fst x <= fst y)%Q /\ ((fst x == fst y)%Q -> snd x < snd y).

Lemma merge_sorted l r : StronglySorted R l -> StronglySorted R r ->
  (forall x y, In x l -> In y r -> snd x < snd y) -> StronglySorted R (merge l r).
Proof.
  intros Hl. revert r. induction Hl as [|x l Hl IH Hx]; intros r Hr Hlt.
  - replace (merge [] r) with r; [exact Hr|]. induction r as [|y r IHr]; [reflexivity|].
    cbn. f_equal. apply IHr. now inversion Hr. intros a b [].
  - induction Hr as [|y r Hr IHr Hy].
    + rewrite merge_nil_r. now constructor.
    + cbn. rewrite Forall_forall in Hx, Hy. destruct (Qle_bool (fst x) (fst y)) eqn:E.
      * apply Qle_bool_iff in E. constructor.
        -- apply IH; [constructor; [exact Hr|now apply Forall_forall]|]. intros a b Ha Hb. apply Hlt; [now right|exact Hb].
        -- apply Forall_forall. intros z Hz. apply (Permutation_in _ (merge_perm l (y :: r))) in Hz.
           apply in_app_or in Hz as [Hz|[<-|Hz]].
           ++ apply Hx, Hz.
           ++ split; [exact E|]. intros _. apply Hlt; [now left|now left].
           ++ destruct (Hy z Hz) as [K _]. split; [lra|]. intros _. apply Hlt; [now left|now right].
      * apply Qle_bool_false in E. constructor.
        -- apply IHr. intros a b Ha Hb. apply Hlt; [exact Ha|now right].
        -- apply Forall_forall. intros z Hz. change ((fix mr (r0 : list (Q * Z)) : list (Q * Z) :=
             match r0 with
             | [] => x :: merge l []
             | y :: r' => if Qle_bool (fst x) (fst y) then x :: merge l r0 else y :: mr r'
             end) r) with (merge (x :: l) r) in Hz.
           apply (Permutation_in _ (merge_perm (x :: l) r)) in Hz.
           apply in_app_or in Hz as [[<-|Hz]|Hz].
           ++ split; [lra|intros; lra].
           ++ destruct (Hx z Hz) as [K _]. split; [lra|intros; lra].
           ++ apply Hy, Hz.
Qed.

Lemma msort_spec fuel a off : a <> [] -> (length a <= fuel)%nat ->
  exists s, msort fuel a off = Some s /\ Permutation s (index_from off a) /\ StronglySorted R s.
Proof.
  revert a off; induction fuel as [|fuel IH]; intros a off Ha Hf.
  - destruct a; [congruence|cbn in Hf; lia].
  - destruct a as [|x [|y a]]; [congruence| |].
    + exists [(x, off)]. split; [reflexivity|]. split; [reflexivity|]. repeat constructor.
    + cbn [msort]. set (A := x :: y :: a) in *.
      set (m1 := Nat.div (length A) 2).
      assert (Hm : (1 <= m1 /\ m1 < length A)%nat).
      { unfold m1. assert (2 <= length A)%nat by (cbn; lia).
        split; [apply Nat.div_le_lower_bound; lia|apply Nat.div_lt; lia]. }
      clearbody m1. clearbody A.
      destruct (IH (firstn m1 A) off) as (l & El & Pl & Sl).
      { intros K. apply (f_equal (@length _)) in K. rewrite firstn_length in K. cbn in K. lia. }
      { rewrite firstn_length. lia. }
      destruct (IH (skipn m1 A) (off + Z.of_nat m1)) as (r & Er & Pr & Sr).
      { intros K. apply (f_equal (@length _)) in K. rewrite skipn_length in K. cbn in K. lia. }
      { rewrite skipn_length. lia. }
      rewrite El, Er. exists (merge l r). split; [reflexivity|]. split.
      * eapply perm_trans; [apply merge_perm|]. replace (index_from off A) with (index_from off (firstn m1 A ++ skipn m1 A)) by (now rewrite firstn_skipn).
        rewrite index_from_app, firstn_length, Nat.min_l by lia. now apply Permutation_app.
      * apply merge_sorted; auto. intros [u i] [v j] Hi Hj.
        apply (Permutation_in _ Pl) in Hi. apply (Permutation_in _ Pr) in Hj.
        apply index_from_range in Hi, Hj. rewrite firstn_length, Nat.min_l in Hi by lia. cbn. lia.
Qed.

(** *** the flags *)
Lemma flags_cons x y a : flags (x :: y :: a) =
    let '(s, r) := flags (y :: a) in
    if negb (Qle_bool x y) then (false, r)
    else if negb (Qle_bool y x) then (s, false) else (s, r).
Proof. reflexivity. Qed.

Lemma flags_sorted a : fst (flags a) = true -> StronglySorted Qle a.
Proof.
  intros H. apply Sorted_StronglySorted; [intros x y z; apply Qle_trans|].
  revert H. induction a as [|x [|y a] IH]; intros H.
  - constructor.
  - repeat constructor.
  - rewrite flags_cons in H. destruct (flags (y :: a)) as [s r] eqn:E.
    destruct (Qle_bool x y) eqn:E1; cbn [negb fst snd] in H; [|discriminate].
    assert (Hs : s = true) by (destruct (Qle_bool y x); exact H).
    constructor; [apply IH; exact Hs|]. constructor. now apply Qle_bool_iff.
Qed.

Lemma flags_rsorted a : snd (flags a) = true -> StronglySorted (fun x y => y <= x)%Q a.
Proof.
  intros H. apply Sorted_StronglySorted; [intros x y z H1 H2; eapply Qle_trans; eassumption|].
  revert H. induction a as [|x [|y a] IH]; intros H.
  - constructor.
  - repeat constructor.
  - rewrite flags_cons in H. destruct (flags (y :: a)) as [s r] eqn:E.
    destruct (Qle_bool x y) eqn:E1; cbn [negb fst snd] in H.
    + destruct (Qle_bool y x) eqn:E2; cbn [negb fst snd] in H; [|discriminate].
      constructor; [apply IH; exact H|]. constructor. now apply Qle_bool_iff.
    + apply Qle_bool_false in E1. constructor; [apply IH; exact H|]. constructor. now apply Qlt_le_weak.
Qed.

Lemma index_from_nth k a i x : elem (index_from k a) i x -> snd x = k + i /\ elem a i (fst x).
Proof.
  revert k i; induction a as [|y a IH]; intros k i H; [destruct (elem_nil _ _ H)|].
  cbn [index_from] in H. apply elem_cons in H as [[-> ->]|H].
  - cbn. split; [lia|]. apply elem_cons. now left.
  - apply IH in H as [H1 H2]. split; [lia|]. apply elem_cons. now right.
Qed.

Lemma nth_error_rev {A} (l : list A) n : (n < length l)%nat -> nth_error (rev l) n = nth_error l (length l - 1 - n).
Proof.
  revert n; induction l as [|x l IH]; intros n H; [cbn in H; lia|]. cbn [rev length] in *.
  destruct (Nat.eq_dec n (length l)) as [->|Hn].
  - rewrite nth_error_app2 by (rewrite rev_length; lia). rewrite rev_length.
    replace (length l - length l)%nat with 0%nat by lia. replace (S (length l) - 1 - length l)%nat with 0%nat by lia. reflexivity.
  - rewrite nth_error_app1 by (rewrite rev_length; lia). rewrite IH by lia.
    replace (S (length l) - 1 - n)%nat with (S (length l - 1 - n)) by lia. reflexivity.
Qed.

Lemma rev_elem {A} (l : list A) i x : elem (rev l) i x -> elem l (Z.of_nat (length l) - 1 - i) x.
Proof.
  intros H. pose proof (elem_len _ _ _ H) as L. rewrite rev_length in L. destruct H as [H1 H2].
  split; [lia|]. rewrite nth_error_rev in H2 by lia. rewrite <- H2. f_equal. lia.
Qed.

Lemma sort_spec a : exists s, sort a = Some s /\ Permutation s (with_positions a) /\ nondecreasing s /\
  (stable s \/ (nonincreasing a /\ s = rev (with_positions a))).
Proof.
  unfold sort. pose proof (flags_sorted a) as Hs. pose proof (flags_rsorted a) as Hr.
  destruct (flags a) as [fs fr] eqn:Ef. cbn [fst snd] in *. rewrite <- index_from_positions.
  destruct fs; [|destruct fr].
  - exists (index_from 0 a). split; [reflexivity|]. split; [reflexivity|].
    specialize (Hs eq_refl). split; [|left].
    + intros i j x y Hi Hj Hl. apply index_from_nth in Hi as [_ Hi], Hj as [_ Hj].
      eapply (ss_elem _ _ Hs); eassumption.
    + intros i j x y Hi Hj Hl _. apply index_from_nth in Hi as [Hi _], Hj as [Hj _]. lia.
  - exists (rev (index_from 0 a)). split; [reflexivity|]. split; [apply Permutation_sym, Permutation_rev|].
    specialize (Hr eq_refl). split; [|right; split; [|reflexivity]].
    + intros i j x y Hi Hj Hl. apply rev_elem in Hi, Hj. apply index_from_nth in Hi as [_ Hi], Hj as [_ Hj].
      refine (ss_elem _ _ Hr _ _ _ _ Hj Hi _). lia.
    + intros i j x y Hi Hj Hl. exact (ss_elem _ _ Hr _ _ _ _ Hi Hj Hl).
  - assert (Ha : a <> []).
    { intros ->. discriminate. }
    destruct (msort_spec (length a) a 0 Ha (le_n _)) as (s & E & P & S). exists s.
    split; [exact E|]. split; [exact P|]. split; [|left].
    + intros i j x y Hi Hj Hl. exact (proj1 (ss_elem _ _ S _ _ _ _ Hi Hj Hl)).
    + intros i j x y Hi Hj Hl. exact (proj2 (ss_elem _ _ S _ _ _ _ Hi Hj Hl)).
Qed.
