(** C63: reading variables of scanned datasets. *)
From Coq Require Import ZArith List Bool Sorted Lia.
From Verif Require Import IndexModel DomainModel DomainProofs ScanModel ScanSpec ScanProofs.
Import ListNotations.
Open Scope Z_scope.

(** ** the common part of two axes *)
Lemma sort_all_In x l : In x (fold_right insert [] l) <-> In x l.
Proof. induction l as [|y l IH]; cbn; [tauto|]. rewrite insert_In, IH. intuition congruence. Qed.
Lemma sort_all_sorted l : rising (fold_right insert [] l).
Proof. induction l as [|y l IH]; cbn; [constructor | now apply insert_sorted]. Qed.
Lemma rising_not_reversed a : rising a -> reversed a = false.
Proof. intros S. destruct a as [|x [|y a]]; try reflexivity. cbn. apply Z.ltb_ge. inversion S as [|? ? _ F]; subst. inversion F; subst. lia. Qed.
Lemma intersection_up a1 a2 : rising a1 -> rising (intersection a1 a2) /\ forall x, In x (intersection a1 a2) <-> In x a1 /\ In x a2.
Proof.
  intros S. unfold intersection. rewrite (rising_not_reversed a1 S). split; [apply sort_all_sorted|]. intros x. rewrite sort_all_In. apply inter_In.
Qed.
(** ** one axis *)
Lemma lookup_none i l : (forall j r, In (j, r) l -> j <> i) -> lookup i l = None.
Proof. induction l as [|[j r] l IH]; intros H; cbn; [reflexivity|]. destruct (Nat.eqb_spec i j) as [->|N]; [exfalso; exact (H j r (or_introl eq_refl) eq_refl)|]. apply IH. intros j' r' Hj. exact (H j' r' (or_intror Hj)). Qed.
Lemma lookup_seq (P : nat * nat -> bool) rs i r : forall k n, nth_error rs i = Some r -> (i < n)%nat ->
  lookup (k + i) (filter P (combine (seq k n) rs)) = if P ((k + i)%nat, r) then Some r else None.
Proof.
  revert i. induction rs as [|r0 rs IH]; intros i k n Hr Hn; [destruct i; discriminate|]. destruct n as [|n]; [lia|]. cbn [seq combine filter].
  destruct i as [|i].
  - cbn in Hr. injection Hr as ->. rewrite Nat.add_0_r. destruct (P (k, r)) eqn:E; [cbn; now rewrite Nat.eqb_refl|].
    apply lookup_none. intros j r' Hj. apply filter_In in Hj as [Hj _]. apply in_combine_l in Hj. apply in_seq in Hj. lia.
  - cbn in Hr. replace (k + S i)%nat with (S k + i)%nat by lia. rewrite <- (IH i (S k) n Hr) by lia. destruct (P (k, r0)); [|reflexivity]. cbn [lookup].
    replace (Nat.eqb (S k + i) k) with false by (symmetry; apply Nat.eqb_neq; lia). reflexivity.
Qed.
Lemma lookup_found a1 sub i x r : nth_error a1 i = Some x -> nth_error (searchsorted sub a1) i = Some r ->
  lookup i (found a1 sub) = if Nat.ltb r (List.length sub) && (at_ sub r =? x) then Some r else None.
Proof.
  intros Hx Hr. unfold found. rewrite (lookup_seq _ _ i r 0 _ Hr) by (apply nth_error_Some; congruence). cbn [Nat.add]. now rewrite (nth_at a1 i x Hx).
Qed.
Lemma lookup_up a1 a2 i x : rising a1 -> nth_error a1 i = Some x ->
  (In x a2 /\ exists r, lookup i (found a1 (intersection a1 a2)) = Some r /\ at_ (intersection a1 a2) r = x) \/ (~ In x a2 /\ lookup i (found a1 (intersection a1 a2)) = None).
Proof.
  intros S Hx. destruct (intersection_up a1 a2 S) as [Si Hi]. pose proof (rank_found _ x Si) as R.
  rewrite (lookup_found a1 _ i x (rank (intersection a1 a2) x) Hx) by (rewrite (searchsorted_rank _ _ Si); now apply map_nth_error).
  assert (Hx1 : In x a1) by now apply nth_error_In in Hx. destruct (in_dec Z.eq_dec x a2) as [H2|H2].
  - left. split; [exact H2|]. destruct (proj1 R) as [R1 R2]; [now apply Hi|]. exists (rank (intersection a1 a2) x). split; [|exact R2].
    apply Nat.ltb_lt in R1. rewrite R1, R2, Z.eqb_refl. reflexivity.
  - right. split; [exact H2|]. destruct (Nat.ltb _ _ && _) eqn:E; [|reflexivity]. exfalso. apply andb_prop in E as [E1 E2]. apply Nat.ltb_lt in E1. apply Z.eqb_eq in E2.
    apply H2. apply Hi. apply R. auto.
Qed.
Lemma F2_len {A B} (R : A -> B -> Prop) l l' : Forall2 R l l' -> List.length l = List.length l'.
Proof. induction 1; cbn; congruence. Qed.
Lemma lookup_down a1 a2 i : falling a1 -> NoDup a2 -> (2 <= List.length (intersection a1 a2))%nat -> lookup i (found a1 (intersection a1 a2)) = None.
Proof.
  intros S _ L2. set (sub := intersection a1 a2) in *. assert (Sf : falling sub /\ forall x, In x sub -> In x a1).
  { unfold sub, intersection in *. destruct (reversed a1) eqn:R.
    - split; [|intros x Hx; apply in_rev in Hx; apply (proj1 (sort_all_In _ _)) in Hx; now apply inter_In in Hx]. clear L2 sub. pose proof (sort_all_sorted (inter a1 a2)) as Su. revert Su. generalize (fold_right insert [] (inter a1 a2)).
      induction l as [|x l IH]; intros Su; [constructor|]. inversion Su as [|? ? Su' F]; subst. cbn [rev]. specialize (IH Su'). clear -IH F.
      assert (G : forall l, falling l -> Forall (fun y => x < y) l -> falling (l ++ [x])).
      { clear. induction 1 as [|y l S IH F]; intros G; cbn; [repeat constructor|]. inversion G; subst. constructor; [now apply IH|]. apply Forall_app. split; [exact F | repeat constructor; assumption]. }
      apply G; [exact IH|]. apply Forall_rev. exact F.
    - exfalso. destruct a1 as [|x [|y a1]].
      + cbn in L2. lia.
      + unfold inter in L2. cbn in L2. destruct (member x a2); cbn in L2; lia.
      + cbn in R. apply Z.ltb_ge in R. inversion S as [|? ? _ F]; subst. inversion F; subst. lia. }
  clearbody sub. destruct Sf as [Sf Hin].
  assert (Q : Forall2 (fun k r => r = List.length sub \/ at_ sub r <> k) a1 (searchsorted sub a1)).
  { unfold searchsorted. apply falling_search; auto; [lia|]. destruct S as [|x a S F]; [constructor|]. cbn [hd]. constructor; [lia|]. eapply Forall_impl; [|exact F]. cbn. intros; lia. }
  destruct (nth_error a1 i) as [x|] eqn:Hx.
  - destruct (nth_error (searchsorted sub a1) i) as [r|] eqn:Hr.
    + rewrite (lookup_found a1 sub i x r Hx Hr). assert (N : r = List.length sub \/ at_ sub r <> x).
      { clear -Q Hx Hr. revert i Hx Hr. induction Q as [|k r0 ks rs H Q IH]; intros [|i] Hx Hr; cbn in *; try discriminate; [congruence | now apply (IH i)]. }
      destruct N as [->|N]; [rewrite Nat.ltb_irrefl; reflexivity|]. apply Z.eqb_neq in N. now rewrite N, andb_false_r.
    + exfalso. apply nth_error_None in Hr. assert (i < List.length a1)%nat by (apply nth_error_Some; congruence). rewrite <- (F2_len _ _ _ Q) in Hr. lia.
  - apply lookup_none. intros j r Hj. apply filter_In in Hj as [Hj _]. apply in_combine_l in Hj. apply in_seq in Hj. apply nth_error_None in Hx. lia.
Qed.

(** ** one file *)
Section Files.
Context {V : Type}.
Lemma lookups_up req idx c axes : Forall rising req -> coordinates req idx c -> List.length axes = List.length req ->
  let subs := map (fun '(a1, a2) => intersection a1 a2) (combine req axes) in
  let r := lookups idx (map (fun '(a1, s) => found a1 s) (combine req subs)) in
  (Forall2 (fun x a => In x a) c axes /\ exists rs, r = Some rs /\ map (fun '(s, k) => at_ s k) (combine subs rs) = c) \/
  (~ Forall2 (fun x a => In x a) c axes /\ r = None).
Proof.
  intros F C. revert axes F. induction C as [|a i x req idx c Hx C IH]; intros axes F L.
  - destruct axes; [|discriminate]. left. split; [constructor|]. exists []. split; reflexivity.
  - destruct axes as [|a2 axes]; [discriminate|]. inversion F as [|? ? Sa F']; subst. cbn [combine map lookups]. cbv zeta in *.
    specialize (IH axes F' (eq_add_S _ _ L)).
    destruct (lookup_up a a2 i x Sa Hx) as [(H2 & r & -> & Hr)|(H2 & ->)].
    + destruct IH as [(HF & rs & -> & Hrs)|(HF & ->)].
      * left. split; [constructor; auto|]. exists (r :: rs). split; [reflexivity|]. cbn [combine map]. now rewrite Hr, Hrs.
      * right. split; [|reflexivity]. intros G. inversion G; subst. auto.
    + right. split; [|reflexivity]. intros G. inversion G; subst. auto.
Qed.
Lemma empty_sub req idx c axes : Forall rising req -> coordinates req idx c -> List.length axes = List.length req ->
  existsb is_empty (map (fun '(a1, a2) => intersection a1 a2) (combine req axes)) = true -> ~ Forall2 (fun x a => In x a) c axes.
Proof.
  intros F C. revert axes F. induction C as [|a i x req idx c Hx C IH]; intros axes F L H; [destruct axes; discriminate|].
  destruct axes as [|a2 axes]; [discriminate|]. inversion F as [|? ? Sa F']; subst. cbn [combine map existsb] in H. apply orb_prop in H as [H|H].
  - intros G. inversion G; subst. assert (K : In x (intersection a a2)) by (apply intersection_up; auto; split; [now apply nth_error_In in Hx | assumption]).
    destruct (intersection a a2); [destruct K | discriminate].
  - intros G. inversion G as [|? ? ? ? G1 G2]; subst. exact (IH axes F' (eq_add_S _ _ L) H G2).
Qed.
Lemma read_file_spec req (f : file V) out out' idx c : Forall rising req -> coordinates req idx c -> List.length (f_axes f) = List.length req -> read_file req f out = Some out' ->
  (has_place f c /\ out' idx = Some (f_data f c)) \/ (~ has_place f c /\ out' idx = out idx).
Proof.
  intros F C L. unfold read_file, subaxes, has_place. destruct (existsb is_empty _) eqn:E.
  - intros H. injection H as <-. right. split; [|reflexivity]. exact (empty_sub req idx c (f_axes f) F C L E).
  - cbv zeta. destruct (_ || _); [discriminate|]. intros H. injection H as <-. destruct (lookups_up req idx c (f_axes f) F C L) as [(G & rs & -> & Hrs)|(G & ->)]; [left | right]; (split; [exact G|]); [now rewrite Hrs | reflexivity].
Qed.
Lemma read_files_spec req (fs : list (file V)) idx c : Forall rising req -> coordinates req idx c -> (forall f, In f fs -> List.length (f_axes f) = List.length req) ->
  forall done out out', latest done c (out idx) -> read_files req fs out = Some out' -> latest (done ++ fs) c (out' idx).
Proof.
  intros F C. induction fs as [|f fs IH]; intros L done out out' H E; cbn [read_files] in E.
  - injection E as <-. now rewrite app_nil_r.
  - destruct (read_file req f out) as [o|] eqn:E1; [|discriminate]. change (f :: fs) with ([f] ++ fs). rewrite app_assoc. apply (IH (fun g Hg => L g (or_intror Hg)) (done ++ [f]) o out'); [|exact E].
    destruct (read_file_spec req f out o idx c F C (L f (or_introl eq_refl)) E1) as [(P & ->)|(P & ->)].
    + right. exists done, f, []. split; [reflexivity|]. split; [exact P|]. split; [intros g [] | reflexivity].
    + destruct H as [(-> & H)|(b & g & a & -> & H1 & H2 & ->)].
      * left. split; [reflexivity|]. intros g Hg. apply in_app_or in Hg as [Hg|[<-|[]]]; [now apply H | exact P].
      * right. exists b, g, (a ++ [f]). split; [now rewrite <- app_assoc|]. split; [exact H1|]. split; [|reflexivity]. intros h Hh. apply in_app_or in Hh as [Hh|[<-|[]]]; [now apply H2 | exact P].
Qed.
End Files.

(** C63: on rising axes, whatever is requested, every value is that of the last file that has the place, and NaN where no file has it. *)
Theorem C63_values : forall V req (fs : list (file V)) out idx c, Forall rising req -> (forall f, In f fs -> List.length (f_axes f) = List.length req) ->
  getview req fs = Some out -> coordinates req idx c -> latest fs c (out idx).
Proof.
  intros V req fs out idx c F L H C. apply (read_files_spec req fs idx c F C L [] (fun _ => None) out); [|exact H]. left. split; [reflexivity | intros f []].
Qed.
Print Assumptions C63_values.

(** ** which requests are answered *)
Lemma found_map (P Q : nat * nat -> bool) (g : Z -> nat) a k : (forall i x, nth_error a i = Some x -> P ((k + i)%nat, g x) = Q ((k + i)%nat, g x)) ->
  filter P (combine (seq k (List.length a)) (map g a)) = filter Q (combine (seq k (List.length a)) (map g a)).
Proof.
  revert k. induction a as [|x a IH]; intros k H; [reflexivity|]. cbn [List.length seq map combine filter].
  pose proof (H 0%nat x eq_refl) as H0. rewrite Nat.add_0_r in H0. rewrite H0. rewrite (IH (S k)); [reflexivity|]. intros i y Hi. replace (S k + i)%nat with (k + S i)%nat by lia. now apply H.
Qed.
Lemma filter_fst (q : Z -> bool) (g : Z -> nat) a : forall k p, (forall i x, nth_error a i = Some x -> p (k + i)%nat = x) ->
  map fst (filter (fun '(i, _) => q (p i)) (combine (seq k (List.length a)) (map g a))) = filter (fun i => q (p i)) (seq k (List.length a)) /\
  map snd (filter (fun '(i, _) => q (p i)) (combine (seq k (List.length a)) (map g a))) = map g (filter q a).
Proof.
  induction a as [|x a IH]; intros k p H; [split; reflexivity|]. cbn [List.length seq map combine filter].
  pose proof (H 0%nat x eq_refl) as H0. rewrite Nat.add_0_r in H0. rewrite H0.
  destruct (IH (S k) p) as [H1 H2]; [intros i y Hi; replace (S k + i)%nat with (k + S i)%nat by lia; now apply H|].
  destruct (q x); cbn [map fst snd]; rewrite H1, H2; split; reflexivity.
Qed.
Lemma found_up a1 a2 : rising a1 -> mask a1 (intersection a1 a2) = filter (fun i => member (at_ a1 i) a2) (seq 0 (List.length a1)) /\
  reorder a1 (intersection a1 a2) = map (rank (intersection a1 a2)) (intersection a1 a2).
Proof.
  intros S. destruct (intersection_up a1 a2 S) as [Si Hi]. unfold mask, reorder, found. rewrite (searchsorted_rank _ _ Si).
  rewrite (found_map _ (fun '(i, _) => member (at_ a1 i) a2) _ a1 0).
  - destruct (filter_fst (fun x => member x a2) (rank (intersection a1 a2)) a1 0 (at_ a1)) as [-> ->]; [intros i x Hx; now apply nth_at|]. split; [reflexivity|]. f_equal.
    apply sorted_ext; [now apply filter_sorted | exact Si|]. intros x. rewrite filter_In, member_In, Hi. reflexivity.
  - intros i x Hx. cbn [Nat.add]. rewrite (nth_at a1 i x Hx). pose proof (rank_found _ x Si) as R. assert (Hx1 : In x a1) by now apply nth_error_In in Hx.
    destruct (member x a2) eqn:E.
    + apply member_In in E. destruct (proj1 R) as [R1 R2]; [now apply Hi|]. apply Nat.ltb_lt in R1. now rewrite R1, R2, Z.eqb_refl.
    + destruct (Nat.ltb _ _ && _) eqn:E2; [|reflexivity]. exfalso. apply andb_prop in E2 as [E1 E2]. apply Nat.ltb_lt in E1. apply Z.eqb_eq in E2.
      assert (K : In x (intersection a1 a2)) by (apply R; auto). apply Hi in K as [_ K]. apply member_In in K. congruence.
Qed.
Lemma rank_all arr : rising arr -> map (rank arr) arr = seq 0 (List.length arr).
Proof.
  intros S. apply (nth_ext _ _ 0%nat 0%nat); [now rewrite map_length, seq_length|]. intros i Hi. rewrite map_length in Hi. rewrite seq_nth by exact Hi. cbn [Nat.add].
  rewrite (nth_indep _ 0%nat (rank arr 0)) by (now rewrite map_length). rewrite map_nth. change (nth i arr 0) with (at_ arr i).
  destruct (rank_spec arr (at_ arr i) S) as [R1 R2]. pose proof (rank_le arr (at_ arr i)) as Rl. destruct (Nat.lt_trichotomy (rank arr (at_ arr i)) i) as [Lt|[Eq|Gt]]; [|exact Eq|]; exfalso.
  - assert (at_ arr (rank arr (at_ arr i)) < at_ arr i) by (apply rising_at; [exact S | lia]). assert (at_ arr i <= at_ arr (rank arr (at_ arr i))) by (apply R2; lia). lia.
  - specialize (R1 i Gt). lia.
Qed.
Definition spaced (start d : Z) (n : nat) : list Z := map (fun k => start + Z.of_nat k * d) (seq 0 n).
Lemma spaced_S start d n : spaced start d (S n) = start :: spaced (start + d) d n.
Proof. unfold spaced. cbn [seq map]. f_equal; [lia|]. rewrite <- seq_shift, map_map. apply map_ext. intros k. lia. Qed.
Lemma diff_spaced start d n : diff (spaced start d (S n)) = repeat d n.
Proof. revert start. induction n as [|n IH]; intros start; [reflexivity|]. rewrite spaced_S. specialize (IH (start + d)). rewrite spaced_S in *. cbn [diff repeat]. cbn [diff] in IH. rewrite IH. f_equal. lia. Qed.
Lemma simplify_spaced start d n : d <> 0 -> is_list (simplify (spaced start d (S n))) = false.
Proof.
  intros Hd. destruct n as [|n]; [reflexivity|]. unfold simplify. pose proof (diff_spaced start d (S n)) as D. rewrite spaced_S in *. rewrite spaced_S in *. rewrite D. cbn [repeat].
  replace (forallb (Z.eqb d) (repeat d n)) with true by (symmetry; apply forallb_forall; intros x Hx; apply repeat_spec in Hx; subst; apply Z.eqb_refl).
  apply Z.eqb_neq in Hd. rewrite Hd. reflexivity.
Qed.
Lemma spaced_sorted start d n : 0 < d -> rising (spaced start d n).
Proof.
  intros Hd. revert start. induction n as [|n IH]; intros start; [constructor|]. rewrite spaced_S. constructor; [apply IH|]. apply Forall_forall. intros x Hx. apply in_map_iff in Hx as (k & <- & _).
  assert (0 <= Z.of_nat k * d) by (apply Z.mul_nonneg_nonneg; lia). lia.
Qed.
Lemma seq_sorted k n (p : nat -> bool) : rising (map Z.of_nat (filter p (seq k n))).
Proof.
  revert k. induction n as [|n IH]; intros k; [constructor|]. cbn [seq filter]. destruct (p k); [|apply IH]. cbn [map]. constructor; [apply IH|].
  apply Forall_forall. intros x Hx. apply in_map_iff in Hx as (j & <- & Hj). apply filter_In in Hj as [Hj _]. apply in_seq in Hj. lia.
Qed.
Lemma seq_spaced n : map Z.of_nat (seq 0 n) = spaced 0 1 n.
Proof. unfold spaced. apply map_ext. intros k. lia. Qed.
Lemma increasing_seq n : forall k, increasing (seq k n) = true.
Proof.
  induction n as [|n IH]; intros k; [reflexivity|]. destruct n as [|n]; [reflexivity|]. specialize (IH (S k)). change (Nat.leb k (S k) && increasing (seq (S k) (S n)) = true).
  rewrite IH, andb_true_r. apply Nat.leb_le. lia.
Qed.
Lemma reorder_regular a1 a2 : rising a1 -> intersection a1 a2 <> [] -> irregular_reorder (reorder a1 (intersection a1 a2)) = false.
Proof.
  intros Sa Ne. rewrite (proj2 (found_up a1 a2 Sa)). rewrite rank_all by now apply intersection_up. unfold irregular_reorder, irregular. rewrite seq_spaced.
  destruct (intersection a1 a2) as [|x l] eqn:E; [congruence|]. cbn [List.length]. rewrite simplify_spaced by lia. rewrite orb_false_r. apply negb_false_iff.
  apply increasing_seq.
Qed.
Lemma mask_regular a1 a2 : rising a1 -> intersection a1 a2 <> [] -> evenly a1 a2 -> irregular (mask a1 (intersection a1 a2)) = false.
Proof.
  intros S Ne (start & d & n & Hd & H). rewrite (proj1 (found_up a1 a2 S)). unfold irregular.
  assert (E : map Z.of_nat (filter (fun i => member (at_ a1 i) a2) (seq 0 (List.length a1))) = spaced (Z.of_nat start) (Z.of_nat d) n).
  { apply sorted_ext; [apply seq_sorted | apply spaced_sorted; lia|]. intros x. unfold spaced. rewrite !in_map_iff. split.
    - intros (i & <- & Hi). apply filter_In in Hi as [Hi Hm]. apply in_seq in Hi. apply member_In in Hm. destruct (proj1 (H i)) as (k & Hk & ->); [exists (at_ a1 i); split; [apply at_nth; lia | exact Hm]|].
      exists k. split; [lia | apply in_seq; lia].
    - intros (k & <- & Hk). apply in_seq in Hk. destruct (proj2 (H (start + k * d)%nat)) as (x & Hx & Hm); [exists k; split; [lia | reflexivity]|].
      exists (start + k * d)%nat. split; [lia|]. apply filter_In. split; [apply in_seq; assert (start + k * d < List.length a1)%nat by (apply nth_error_Some; congruence); lia|].
      apply member_In. now rewrite (nth_at _ _ _ Hx). }
  rewrite E. destruct n as [|n]; [|apply simplify_spaced; lia]. exfalso. destruct (intersection a1 a2) as [|x l] eqn:Ei; [congruence|].
  assert (K : In x (intersection a1 a2)) by (rewrite Ei; now left). apply (intersection_up a1 a2 S) in K as [K1 K2]. apply In_nth_error in K1 as [i Hi].
  destruct (proj1 (H i)) as (k & Hk & _); [eauto | lia].
Qed.
Lemma count_one {A} (p : A -> bool) l j : (forall k x, k <> j -> nth_error l k = Some x -> p x = false) -> (count p l <= 1)%nat.
Proof.
  unfold count. revert j. induction l as [|x l IH]; intros j H; cbn [filter]; [cbn; lia|]. destruct j as [|j].
  - assert (E : filter p l = []).
    { clear IH. assert (G : forall y, In y l -> p y = false) by (intros y Hy; apply In_nth_error in Hy as [k Hk]; exact (H (S k) y ltac:(lia) Hk)).
      clear H. induction l as [|y l IH]; [reflexivity|]. cbn. rewrite (G y (or_introl eq_refl)). apply IH. intros z Hz. apply G. now right. }
    rewrite E. destruct (p x); cbn; lia.
  - rewrite (H 0%nat x (Nat.neq_0_succ j) eq_refl). apply (IH j). intros k y Hk Hy. apply (H (S k) y); [lia | exact Hy].
Qed.
Lemma nth_combine_inv {A B} (a : list A) (b : list B) k x y : nth_error (combine a b) k = Some (x, y) -> nth_error a k = Some x /\ nth_error b k = Some y.
Proof. revert b k. induction a as [|u a IH]; intros [|v b] [|k] H; cbn in *; try discriminate; [injection H as -> ->; auto | now apply IH]. Qed.

(** C63: a request on rising axes is answered if on all axes but one what each file has of the requested axis is evenly spaced in it (for example, all of it, or a contiguous part). *)
Theorem C63_answered : forall V req (fs : list (file V)), Forall rising req ->
  (forall f, In f fs -> exists j, forall k a1 a2, k <> j -> nth_error req k = Some a1 -> nth_error (f_axes f) k = Some a2 -> evenly a1 a2) ->
  exists out, getview req fs = Some out.
Proof.
  intros V req fs F H. unfold getview. generalize (fun _ : list nat => @None V). induction fs as [|f fs IH]; intros out; cbn [read_files]; [eauto|].
  assert (Q : exists o, read_file req f out = Some o); [|destruct Q as [o ->]; apply IH; intros g Hg; apply H; now right].
  unfold read_file. destruct (existsb is_empty _) eqn:E; [eauto|]. cbv zeta. destruct (H f (or_introl eq_refl)) as [j Hj].
  assert (P : forall k a1 s, nth_error (combine req (subaxes req f)) k = Some (a1, s) -> exists a2, nth_error req k = Some a1 /\ nth_error (f_axes f) k = Some a2 /\ s = intersection a1 a2 /\ s <> [] /\ rising a1).
  { intros k a1 s Hk. apply nth_combine_inv in Hk as [H1 H2]. unfold subaxes in H2. rewrite nth_error_map in H2. destruct (nth_error (combine req (f_axes f)) k) as [[b1 b2]|] eqn:Ec; [|discriminate].
    apply nth_combine_inv in Ec as [E1 E2]. assert (b1 = a1) by congruence. subst b1. exists b2. split; [exact H1|]. split; [exact E2|]. cbn in H2. injection H2 as <-. split; [reflexivity|]. split.
    - intros Z0. assert (T : existsb is_empty (subaxes req f) = true); [|congruence]. apply existsb_exists. exists (intersection a1 b2). split; [|now rewrite Z0].
      unfold subaxes. apply in_map_iff. exists (a1, b2). split; [reflexivity|]. apply (nth_error_In _ k). now apply nth_combine.
    - apply (proj1 (Forall_forall _ _) F). now apply nth_error_In in H1. }
  replace (Nat.ltb 1 _) with false; [replace (Nat.ltb 1 _) with false; [cbn; eauto|]|]; symmetry; apply Nat.ltb_ge; apply (count_one _ _ j); intros k [a1 s] Hk Hn; destruct (P k a1 s Hn) as (a2 & H1 & H2 & -> & Ne & S).
  - apply mask_regular; auto. now apply (Hj k a1 a2).
  - now apply reorder_regular.
Qed.
Print Assumptions C63_answered.

(** C63, refuted part: on a falling axis nothing is found, whatever the files hold, unless they share no more than one value with the request. *)
Theorem C63_falling_refuted : forall V a1 (fs : list (file V)) out i, falling a1 ->
  (forall f, In f fs -> exists a2, f_axes f = [a2] /\ NoDup a2 /\ (2 <= List.length (intersection a1 a2))%nat) ->
  getview [a1] fs = Some out -> out [i] = None.
Proof.
  intros V a1 fs out i S H. unfold getview. assert (G : forall o, o [i] = @None V -> read_files [a1] fs o = Some out -> out [i] = None); [|apply G; reflexivity].
  induction fs as [|f fs IH]; intros o Ho; cbn [read_files]; [intros E; injection E as <-; exact Ho|].
  destruct (read_file [a1] f o) as [o'|] eqn:E; [|discriminate]. apply (IH (fun g Hg => H g (or_intror Hg))). revert E.
  destruct (H f (or_introl eq_refl)) as (a2 & Ea & N & L2). unfold read_file, subaxes. rewrite Ea. cbn [combine map]. destruct (existsb _ _); [intros E; injection E as <-; exact Ho|].
  cbv zeta. destruct (_ || _); [discriminate|]. intros E. injection E as <-. cbn [lookups]. rewrite (lookup_down a1 a2 i S N L2). exact Ho.
Qed.
Print Assumptions C63_falling_refuted.
(** the same file, read over a rising and a falling axis *)
Definition tenfold : file Z := File [[1; 2; 3]] (fun c => 10 * hd 0 c).
Example read_up : option_map (fun o => map (fun i => o [i]) (seq 0 4)) (getview [[0; 1; 2; 3]] [tenfold]) = Some [None; Some 10; Some 20; Some 30].
Proof. vm_compute. reflexivity. Qed.
Example read_down : option_map (fun o => map (fun i => o [i]) (seq 0 4)) (getview [[3; 2; 1; 0]] [tenfold]) = Some [None; None; None; None].
Proof. vm_compute. reflexivity. Qed.
(** two files, the second overwriting a place of the first *)
Example read_two : option_map (fun o => map (fun i => o [i]) (seq 0 4)) (getview [[1; 2; 3; 4]] [tenfold; File [[3; 4]] (fun c => 100 * hd 0 c)]) = Some [Some 10; Some 20; Some 300; Some 400].
Proof. vm_compute. reflexivity. Qed.
(** C63, refuted part: a file with gaps on two axes stops the reading. *)
Theorem C63_gaps_refuted : exists (f : file Z), Forall rising (f_axes f) /\ getview [[1; 2; 3; 4]; [1; 2; 3; 4]] [f] = None.
Proof. exists (File [[1; 2; 4]; [1; 2; 4]] (fun _ => 0)). split; [repeat constructor; reflexivity | vm_compute; reflexivity]. Qed.
Print Assumptions C63_gaps_refuted.
Example tenfold_even : evenly [0; 1; 2; 3] [1; 2; 3].
Proof.
  exists 1%nat, 1%nat, 3%nat. split; [lia|]. intros i. split.
  - intros (x & Hx & Hi). destruct i as [|[|[|[|i]]]]; cbn in Hx; try (destruct i; discriminate); injection Hx as <-; cbn in Hi.
    + exfalso. intuition discriminate.
    + exists 0%nat. lia.
    + exists 1%nat. lia.
    + exists 2%nat. lia.
  - intros (k & Hk & ->). destruct k as [|[|[|k]]]; [| | |lia]; cbn; eexists; split; try reflexivity; cbn; auto.
Qed.
Example tenfold_down : falling [3; 2; 1; 0] /\ (2 <= List.length (intersection [3; 2; 1; 0]%Z [1; 2; 3]%Z))%nat.
Proof. split; [repeat constructor; reflexivity | vm_compute; lia]. Qed.
