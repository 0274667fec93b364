(** Two domains that fit together along an axis are put together. *)
From Coq Require Import ZArith List Bool String Sorted Lia.
From Verif Require Import DomainModel DomainSpec DomainProofs DomainOrder.
Import ListNotations.
Open Scope Z_scope.

(** ** two domains with the same axes have the same axis names *)
Definition doubled {A} (l : list A) : list A := flat_map (fun x => [x; x]) l.
Lemma insert_past x l l' : Forall (fun y => pair_leb y x = false) l -> insert_down x (l ++ l') = l ++ insert_down x l'.
Proof. induction 1 as [|y l H F IH]; cbn; [reflexivity|]. now rewrite H, IH. Qed.
Lemma compare_refl s : String.compare s s = Eq.
Proof. induction s as [|c s IH]; [reflexivity|]. cbn. rewrite IH. unfold Ascii.compare. now rewrite N.compare_refl. Qed.
Lemma pair_refl x : pair_leb x x = true.
Proof. unfold pair_leb. rewrite Nat.ltb_irrefl, Nat.eqb_refl. unfold String.leb. now rewrite compare_refl. Qed.
Lemma pair_greater i j s t : (j < i)%nat -> pair_leb (i, s) (j, t) = false.
Proof. intros H. unfold pair_leb. cbn [fst snd]. replace (Nat.ltb i j) with false by (symmetry; apply Nat.ltb_ge; lia). replace (Nat.eqb i j) with false by (symmetry; apply Nat.eqb_neq; lia). reflexivity. Qed.
Definition numbered_from (k : nat) (names : list string) := combine (seq k (List.length names)) names.
Lemma from_greater k names : Forall (fun q => (k <= fst q)%nat) (numbered_from k names).
Proof. revert k. induction names as [|s n IH]; intros k; [constructor|]. cbn. constructor; [cbn; lia|]. eapply Forall_impl; [|exact (IH (S k))]. cbn. intros. lia. Qed.
Lemma sort_from k names M : Forall (fun q => (fst q < k)%nat) M -> fold_right insert_down (rev (numbered_from k names) ++ M) (numbered_from k names) = rev (doubled (numbered_from k names)) ++ M /\
  fold_right insert_down M (numbered_from k names) = rev (numbered_from k names) ++ M.
Proof.
  revert k M. induction names as [|s names IH]; intros k M HM; [split; reflexivity|].
  change (numbered_from k (s :: names)) with ((k, s) :: numbered_from (S k) names). cbn [fold_right rev doubled flat_map].
  assert (G : forall l, Forall (fun q : nat * string => (S k <= fst q)%nat) l -> Forall (fun y => pair_leb y (k, s) = false) l).
  { intros l. apply Forall_impl. intros [i t] Hi. apply pair_greater. cbn in Hi. lia. }
  assert (HM' : Forall (fun q => (fst q < S k)%nat) ((k, s) :: M)) by (constructor; [cbn; lia | eapply Forall_impl; [|exact HM]; cbn; intros; lia]).
  pose proof (from_greater (S k) names) as Fg. split.
  - rewrite <- app_assoc. cbn [app]. rewrite (proj1 (IH (S k) ((k, s) :: M) HM')). rewrite insert_past.
    + cbn [insert_down]. rewrite pair_refl. cbn [app rev]. rewrite <- !app_assoc. reflexivity.
    + apply G. apply Forall_rev. unfold doubled. apply Forall_flat_map. eapply Forall_impl; [|exact Fg]. intros a Ha. repeat constructor; exact Ha.
  - rewrite (proj2 (IH (S k) M (Forall_impl _ (fun q Hq => Nat.lt_trans _ _ _ Hq (Nat.lt_succ_diag_r k)) HM))). rewrite insert_past by (apply G; now apply Forall_rev).
    rewrite <- app_assoc. f_equal. cbn [app]. destruct M as [|[i t] M]; [reflexivity|]. cbn [insert_down]. inversion HM; subst. cbn in *.
    unfold pair_leb. cbn [fst snd]. replace (Nat.ltb i k) with true by (symmetry; now apply Nat.ltb_lt). reflexivity.
Qed.
Lemma dedupe_doubled (L : list (nat * string)) l :
  fold_left (fun l p => if has (snd p) l then l else l ++ [snd p]) (doubled L) l = fold_left (fun l p => if has (snd p) l then l else l ++ [snd p]) L l.
Proof.
  revert l. induction L as [|x L IH]; intros l; [reflexivity|]. cbn [doubled flat_map app fold_left]. change (flat_map (fun x => [x; x]) L) with (doubled L).
  destruct (has (snd x) l) eqn:E; [rewrite E; apply IH|]. replace (has (snd x) (l ++ [snd x])) with true; [apply IH|]. symmetry. apply has_In. apply in_or_app. right. now left.
Qed.
Lemma rev_doubled {A} (l : list A) : rev (doubled l) = doubled (rev l).
Proof. induction l as [|x l IH]; [reflexivity|]. cbn [doubled flat_map rev app]. change (flat_map (fun x => [x; x]) l) with (doubled l). rewrite IH. unfold doubled. rewrite flat_map_app. cbn. now rewrite <- app_assoc. Qed.
Lemma axis_names_same a b : d_names a = d_names b -> axis_names [a; b] = axis_names [a].
Proof.
  intros E. unfold axis_names. cbn [flat_map]. rewrite <- E, !app_nil_r. unfold numbered. fold (numbered_from 0 (d_names a)). rewrite fold_right_app.
  destruct (sort_from 0 (d_names a) []) as [H1 H2]; [constructor|]. rewrite app_nil_r in H1, H2. rewrite H2, H1, app_nil_r. rewrite rev_doubled, dedupe_doubled. reflexivity.
Qed.

(** ** the search for combinations is complete for pairs *)
Lemma loop_closed fuel ds : forall merged m, merge_loop fuel ds merged = Some m -> forall d1 d2 d, In d1 ds -> In d2 m -> d1 <> d2 -> In d (merge_domains d1 d2) -> In d m.
Proof.
  induction fuel as [|f IH]; intros merged m; cbn [merge_loop]; [discriminate|]. destruct (merge_round ds merged) as [|x new] eqn:E; [|apply IH].
  intros H. injection H as <-. intros d1 d2 d H1 H2 Ne Hd. destruct (in_dec domain_dec d merged) as [Hi|Hi]; [exact Hi|]. exfalso.
  assert (K : In d (merge_round ds merged)); [|rewrite E in K; destruct K]. unfold merge_round. apply distinct_In. unfold minus. apply filter_In. split.
  - apply in_flat_map. exists d1. split; [exact H1|]. apply in_flat_map. exists d2. split; [exact H2|]. destruct (domain_dec d1 d2); [contradiction | exact Hd].
  - unfold mem_domain. destruct (in_dec domain_dec d merged); [contradiction | reflexivity].
Qed.
Lemma few_empty l i u : existsb is_empty (put l i u) = false -> (List.length (filter is_empty l) <= 1)%nat.
Proof.
  revert i. assert (G : forall l, existsb is_empty l = false -> filter is_empty l = []).
  { clear. induction l as [|x l IH]; cbn; [reflexivity|]. destruct (is_empty x); cbn; [discriminate | exact IH]. }
  induction l as [|x l IH]; intros [|i] H; cbn in *; try lia.
  - apply orb_false_elim in H as [_ H]. rewrite (G l H). destruct (is_empty x); cbn; lia.
  - apply orb_false_elim in H as [H1 H2]. rewrite H1. now apply IH in H2.
Qed.
Lemma sorted_NoDup l : StronglySorted Z.lt l -> NoDup l.
Proof. induction 1 as [|x l S IH F]; constructor; auto. intros H. rewrite Forall_forall in F. specialize (F x H). lia. Qed.
Lemma merge_joins a b s p0 : proper a -> proper b -> d_names a = d_names b -> In s (d_names a) -> joint s p0 a b ->
  exists d, (d = a \/ d = b \/ In d (merge_domains a b)) /\ d_names d = d_names a /\ forall p, joint s p a b -> within p d.
Proof.
  intros Pa Pb En Hs J0. pose proof Pa as (Na & La & Sa). pose proof Pb as (Nb & Lb & Sb). apply In_nth_error in Hs as [i Hi].
  assert (Li : (i < List.length (d_names a))%nat) by (apply nth_error_Some; congruence).
  destruct (nth_error (d_values a) i) as [v1|] eqn:E1; [|apply nth_error_None in E1; lia].
  destruct (nth_error (d_values b) i) as [v2|] eqn:E2; [|apply nth_error_None in E2; rewrite Lb, <- En in E2; lia].
  assert (Hib : nth_error (d_names b) i = Some s) by now rewrite <- En.
  assert (Ov : forall j t w1 w2, nth_error (d_names a) j = Some t -> nth_error (d_values a) j = Some w1 -> nth_error (d_values b) j = Some w2 -> other_values b t w1 = w2).
  { intros j t w1 w2 A1 A2 A3. unfold other_values. rewrite (nth_axis_values b t w2 j Nb); [reflexivity | now rewrite <- En | exact A3]. }
  pose proof (Ov i s v1 v2 Hi E1 E2) as O2.
  assert (Jn : forall p, joint s p a b -> (In (p s) v1 \/ In (p s) v2) /\ forall j t w, j <> i -> nth_error (d_names a) j = Some t -> (nth_error (d_values a) j = Some w \/ nth_error (d_values b) j = Some w) -> In (p t) w).
  { intros p ([W|W] & A1 & A2); (split; [first [left; exact (W i s v1 Hi E1) | right; exact (W i s v2 Hib E2)]|]).
    all: intros j t w Hj Ht [Hw|Hw]; assert (Hne : t <> s) by (intros ->; apply Hj; apply (proj1 (NoDup_nth_error _) Na); [apply nth_error_Some; congruence | congruence]).
    all: first [exact (A1 j t w Hne Ht Hw) | apply (A2 j t w Hne); [now rewrite <- En | exact Hw]]. }
  assert (S1 : StronglySorted Z.lt v1) by (apply (proj1 (Forall_forall _ _) Sa); now apply nth_error_In in E1).
  assert (S2 : StronglySorted Z.lt v2) by (apply (proj1 (Forall_forall _ _) Sb); now apply nth_error_In in E2).
  destruct (useful a b i) eqn:U.
  - exists (Domain (d_names a) (put (zip a b inter) i (union v1 v2))). split; [right; right|split; [reflexivity|]].
    + unfold merge_domains. rewrite (axis_names_same a b En). replace (same_names _ _) with true by (symmetry; now apply same_names_eq). unfold merge_into.
      assert (Ne : existsb is_empty (put (zip a b inter) i (union v1 v2)) = false).
      { destruct (existsb is_empty _) eqn:E; [|reflexivity]. exfalso. apply existsb_exists in E as (w & Hw & Ew). apply In_nth_error in Hw as [j Hw]. destruct (Jn p0 J0) as [J1 J2].
        apply put_nth in Hw as [(<- & -> & _)|(Hj & Hw)].
        - destruct (union v1 v2) eqn:Eu; [|discriminate]. assert (K : In (p0 s) (union v1 v2)) by now apply union_In. rewrite Eu in K. destruct K.
        - assert (Lj : (j < List.length (d_values a))%nat) by (rewrite <- (zip_length a b inter Pa); apply nth_error_Some; congruence).
          destruct (nth_error (d_values a) j) as [w1|] eqn:W1; [|apply nth_error_None in W1; lia].
          destruct (nth_error (d_names a) j) as [t|] eqn:Ht; [|apply nth_error_None in Ht; lia].
          destruct (nth_error (d_values b) j) as [w2|] eqn:W2; [|apply nth_error_None in W2; rewrite Lb, <- En in W2; lia].
          rewrite (zip_nth a b inter j t w1 Ht W1), (Ov j t w1 w2 Ht W1 W2) in Hw. injection Hw as <-.
          destruct (inter w1 w2) eqn:Ei; [|discriminate]. assert (K : In (p0 t) (inter w1 w2)) by (apply inter_In; split; [apply (J2 j t w1); auto | apply (J2 j t w2); auto]). rewrite Ei in K. destruct K. }
      cbv zeta. replace (Nat.ltb 1 _) with false by (symmetry; apply Nat.ltb_ge; now apply few_empty in Ne).
      apply in_flat_map. exists i. split; [apply filter_In; split; [apply in_seq; lia | exact U]|].
      rewrite (zip_nth a b union i s v1 Hi E1), O2, Ne. now left.
    + intros p Jp. destruct (Jn p Jp) as [J1 J2]. intros j t w Ht Hw. cbn [d_names d_values] in Ht, Hw. apply put_nth in Hw as [(<- & -> & _)|(Hj & Hw)].
      * assert (t = s) by congruence. subst t. now apply union_In.
      * assert (Lj : (j < List.length (d_values a))%nat) by (rewrite <- (zip_length a b inter Pa); apply nth_error_Some; congruence).
        destruct (nth_error (d_values a) j) as [w1|] eqn:W1; [|apply nth_error_None in W1; lia].
        destruct (nth_error (d_values b) j) as [w2|] eqn:W2; [|apply nth_error_None in W2; rewrite Lb, <- En in W2; lia].
        rewrite (zip_nth a b inter j t w1 Ht W1), (Ov j t w1 w2 Ht W1 W2) in Hw. injection Hw as <-. apply inter_In. split; [apply (J2 j t w1); auto | apply (J2 j t w2); auto].
  - assert (Q : incl v2 v1 \/ incl v1 v2).
    { unfold useful in U. rewrite (nth_combine _ _ _ _ _ Hi E1), O2 in U. cbv zeta in U. apply andb_false_iff in U. destruct U as [U|U]; apply Nat.ltb_ge in U; [left|right].
      - assert (K : incl (union v1 v2) v1) by (apply NoDup_length_incl; [now apply sorted_NoDup | exact U | intros x Hx; apply union_In; now left]). intros x Hx. apply K, union_In. now right.
      - assert (K : incl (union v1 v2) v2) by (apply NoDup_length_incl; [now apply sorted_NoDup | exact U | intros x Hx; apply union_In; now right]). intros x Hx. apply K, union_In. now left. }
    destruct Q as [Q|Q]; [exists a | exists b]; (split; [auto|]; split; [auto|]).
    + intros p Jp. destruct (Jn p Jp) as [J1 J2]. intros j t w Ht Hw. destruct (Nat.eq_dec j i) as [->|Hj]; [|apply (J2 j t w); auto].
      assert (t = s) by congruence. assert (w = v1) by congruence. subst. destruct J1; auto.
    + intros p Jp. destruct (Jn p Jp) as [J1 J2]. intros j t w Ht Hw. destruct (Nat.eq_dec j i) as [->|Hj]; [|apply (J2 j t w); auto; congruence].
      assert (t = s) by congruence. assert (w = v2) by congruence. subst. destruct J1; auto.
Qed.
Lemma within_inside p a b : List.length (d_values a) = List.length (d_names a) -> inside a b -> within p a -> within p b.
Proof.
  intros L [En F] W j s w Hs Hw. assert (Lj : (j < List.length (d_values a))%nat) by (rewrite L, En; apply nth_error_Some; congruence).
  destruct (nth_error (d_values a) j) as [v|] eqn:Ev; [|apply nth_error_None in Ev; lia]. apply (F2_nth _ _ _ _ _ F Ev Hw). apply (W j s v); [now rewrite En | exact Ev].
Qed.
Lemma apart_inside s p a b : List.length (d_values a) = List.length (d_names a) -> inside a b -> apart_from s p a -> apart_from s p b.
Proof.
  intros L [En F] W j t w Ht Hs Hw. assert (Lj : (j < List.length (d_values a))%nat) by (rewrite L, En; apply nth_error_Some; congruence).
  destruct (nth_error (d_values a) j) as [v|] eqn:Ev; [|apply nth_error_None in Ev; lia]. apply (F2_nth _ _ _ _ _ F Ev Hw). apply (W j t v Ht); [now rewrite En | exact Ev].
Qed.
Lemma joint_inside s p a b a' b' : proper a -> proper b -> inside a a' -> inside b b' -> joint s p a b -> joint s p a' b'.
Proof.
  intros (_ & La & _) (_ & Lb & _) Ia Ib (W & A1 & A2). split; [destruct W as [W|W]; [left; exact (within_inside p a a' La Ia W) | right; exact (within_inside p b b' Lb Ib W)]|]. split; [exact (apart_inside s p a a' La Ia A1) | exact (apart_inside s p b b' Lb Ib A2)].
Qed.
