(** C76: looking for variables in a collection of datasets. *)
From Coq Require Import ZArith List Bool QArith_base String Lia Sorting.Permutation.
From Verif Require Import CalModel IndexModel ArrModel ViewModel CfModel FindModel.
Import ListNotations.
Open Scope Z_scope.
Open Scope list_scope.

(** [l] is what a dataset has under these names *)
Definition matches {V} (d : list (string * V)) (names : list string) (l : list V) : Prop := Forall2 (fun n v => lookup n d = Some v) names l.
Definition meets {V} (d : list (string * V)) (requirement : option (list (string * V) -> bool)) : Prop := match requirement with Some r => r d = true | None => True end.

Lemma sequence_matches {V} (d : list (string * V)) names l : sequence (map (fun n => lookup n d) names) = Some l <-> matches d names l.
Proof.
  revert l. induction names as [|n names IH]; intros l; cbn [map sequence].
  - split; [intros [= <-]; constructor|intros H; inversion H; reflexivity].
  - split.
    + intros H. destruct (lookup n d) as [v|] eqn:E; [|discriminate]. destruct (sequence (map _ names)) as [r|] eqn:Er; [|discriminate]. injection H as <-. constructor; [exact E|]. now apply IH.
    + intros H. inversion H as [|? v ? r Hv Hr]; subst. apply IH in Hr. rewrite Hv. now rewrite Hr.
Qed.
(** what is found: one match for each dataset that meets the requirement and has all the names, in the order of the datasets *)
Theorem C76_find : forall V (sets : list (list (string * V))) names requirement l,
  In l (find sets names requirement) <-> exists d, In d sets /\ meets d requirement /\ matches d names l.
Proof.
  intros V sets names requirement l. unfold find. rewrite in_flat_map. split.
  - intros (d & Hd & H). exists d. split; [exact Hd|]. unfold meets. destruct (match requirement with Some r => r d | None => true end) eqn:E; [|destruct H].
    destruct (sequence _) as [l'|] eqn:Es; [|destruct H]. destruct H as [<-|[]]. split; [destruct requirement; [exact E|exact Logic.I]|now apply sequence_matches].
  - intros (d & Hd & Hm & H). exists d. split; [exact Hd|]. apply sequence_matches in H. unfold meets in Hm. replace (match requirement with Some r => r d | None => true end) with true by (destruct requirement; congruence). rewrite H. now left.
Qed.
Print Assumptions C76_find.
Theorem C76_find_order : forall V (sets1 sets2 : list (list (string * V))) names requirement,
  find (sets1 ++ sets2) names requirement = find sets1 names requirement ++ find sets2 names requirement /\ (List.length (find sets1 names requirement) <= List.length sets1)%nat.
Proof.
  intros. split; [apply flat_map_app|]. unfold find. induction sets1 as [|d l IH]; [constructor|]. cbn [flat_map List.length]. rewrite app_length.
  destruct (match requirement with Some r => r d | None => true end); [destruct (sequence _)|]; cbn [List.length]; lia.
Qed.
Print Assumptions C76_find_order.
Theorem C76_have : forall V (sets : list (list (string * V))) n, have sets n = true <-> find sets [n] None <> [].
Proof.
  intros V sets n. unfold have. rewrite existsb_exists. split.
  - intros (d & Hd & H) E. destruct (lookup n d) as [v|] eqn:El; [|discriminate]. assert (In [v] (find sets [n] None)) as K by (apply C76_find; exists d; split; [exact Hd|]; split; [exact Logic.I|]; repeat constructor; exact El). rewrite E in K. destruct K.
  - intros H. destruct (find sets [n] None) as [|l r] eqn:E; [now destruct H|]. assert (In l (find sets [n] None)) as K by (rewrite E; now left). apply C76_find in K as (d & Hd & _ & Hm). exists d. split; [exact Hd|]. inversion Hm as [|? v ? ? Hv _]; subst. now rewrite Hv.
Qed.
Print Assumptions C76_have.

(** ** the order of lists of numbers *)
Inductive lex_less : list Q -> list Q -> Prop :=
| Less_nil x l : lex_less [] (x :: l)
| Less_head x y a b : (x < y)%Q -> lex_less (x :: a) (y :: b)
| Less_tail x y a b : (x == y)%Q -> lex_less a b -> lex_less (x :: a) (y :: b).
Definition lex_same (a b : list Q) : Prop := Forall2 Qeq a b.
Lemma lex_le_spec a b : lex_le a b = true <-> lex_less a b \/ lex_same a b.
Proof.
  revert b. induction a as [|x a IH]; intros [|y b]; cbn [lex_le].
  - split; [right; constructor|reflexivity].
  - split; [left; constructor|reflexivity].
  - split; [discriminate|]. intros [H|H]; inversion H.
  - destruct (Qle_bool y x) eqn:E; cbn [negb].
    + apply Qle_bool_iff in E. split.
      * intros H. destruct (andb_prop _ _ H) as [H1 H2]. apply Qle_bool_iff in H1. assert (x == y)%Q as Hxy by now apply Qle_antisym. apply IH in H2 as [H2|H2]; [left; now apply Less_tail|right; now constructor].
      * intros H. apply andb_true_iff. rewrite Qle_bool_iff, IH. destruct H as [H|H]; inversion H; subst; [exfalso; eapply Qlt_not_le; eassumption| |]; (split; [match goal with K : (x == y)%Q |- _ => rewrite K; apply Qle_refl end|tauto]).
    + split; [|reflexivity]. intros _. left. apply Less_head. apply Qnot_le_lt. intros K. apply Qle_bool_iff in K. congruence.
Qed.
Lemma lex_total a b : lex_le a b = true \/ lex_le b a = true.
Proof.
  revert b. induction a as [|x a IH]; intros [|y b]; cbn [lex_le]; auto. destruct (Qle_bool y x) eqn:E1, (Qle_bool x y) eqn:E2; cbn; auto.
Qed.
Lemma lex_trans a b c : lex_le a b = true -> lex_le b c = true -> lex_le a c = true.
Proof.
  revert b c. induction a as [|x a IH]; intros [|y b] [|z c]; cbn [lex_le]; try reflexivity; try discriminate.
  destruct (Qle_bool y x) eqn:E1, (Qle_bool z y) eqn:E2, (Qle_bool z x) eqn:E3; cbn [negb]; intros H1 H2; try reflexivity; try discriminate.
  - destruct (andb_prop _ _ H1) as [A1 A2], (andb_prop _ _ H2) as [B1 B2]. rewrite (IH _ _ A2 B2), andb_true_r. apply Qle_bool_iff. apply Qle_bool_iff in A1, B1. now apply (Qle_trans _ y).
  - exfalso. destruct (andb_prop _ _ H1) as [A1 _]. apply Qle_bool_iff in E3, A1. assert (z <= y)%Q as K by now apply (Qle_trans _ x). apply Qle_bool_iff in K. congruence.
  - exfalso. destruct (andb_prop _ _ H2) as [B1 _]. apply Qle_bool_iff in B1, E3. assert (y <= x)%Q as K by now apply (Qle_trans _ z). apply Qle_bool_iff in K. congruence.
  - exfalso. apply Qle_bool_iff in E3. destruct (Qlt_le_dec x y) as [K|K]; [|apply Qle_bool_iff in K; congruence]. assert (z <= y)%Q as K' by (apply (Qle_trans _ x); [exact E3|now apply Qlt_le_weak]). apply Qle_bool_iff in K'. congruence.
Qed.

(** ** the first element of a sorted list *)
Section Sort.
Context {A : Type} (le : A -> A -> bool) (le_total : forall a b, le a b = true \/ le b a = true) (le_trans : forall a b c, le a b = true -> le b c = true -> le a c = true).
Definition ordered (l : list A) : Prop := forall pre x post y, l = pre ++ x :: post -> In y post -> le x y = true.
Lemma insert_perm x l : Permutation (x :: l) (insert le x l).
Proof. induction l as [|y l IH]; [reflexivity|]. cbn [insert]. destruct (le x y); [reflexivity|]. rewrite perm_swap. now constructor. Qed.
Lemma sorted_perm l : Permutation l (sorted le l).
Proof. induction l as [|x l IH]; [constructor|]. cbn [sorted fold_right]. change (fold_right _ [] l) with (sorted le l). rewrite <- insert_perm. now constructor. Qed.
Lemma ordered_cons x l : ordered (x :: l) <-> (forall y, In y l -> le x y = true) /\ ordered l.
Proof.
  split.
  - intros H. split; [intros y Hy; exact (H [] x l y eq_refl Hy)|]. intros pre z post y -> Hy. exact (H (x :: pre) z post y eq_refl Hy).
  - intros [H1 H2] [|w pre] z post y E Hy; cbn [app] in E; injection E as -> E; [subst; now apply H1|]. exact (H2 pre z post y E Hy).
Qed.
Lemma insert_ordered x l : ordered l -> ordered (insert le x l).
Proof.
  induction l as [|y l IH]; intros H; cbn [insert].
  - apply ordered_cons. split; [intros y []|exact H].
  - apply ordered_cons in H as [H1 H2]. destruct (le x y) eqn:E.
    + apply ordered_cons. split; [|apply ordered_cons; now split]. intros z [<-|Hz]; [exact E|]. apply (le_trans _ y); [exact E|now apply H1].
    + apply ordered_cons. split; [|now apply IH]. intros z Hz. apply (Permutation_in _ (Permutation_sym (insert_perm x l))) in Hz as [<-|Hz]; [destruct (le_total x y); congruence|now apply H1].
Qed.
Lemma sorted_ordered l : ordered (sorted le l).
Proof. induction l as [|x l IH]; [intros [|] ? ? ? E; discriminate|]. cbn [sorted fold_right]. apply insert_ordered. exact IH. Qed.
(** the first of the sorted list is the first of the least ones *)
Lemma sorted_head l h : hd_error (sorted le l) = Some h -> exists pre post, l = pre ++ h :: post /\ (forall x, In x pre -> le x h = false) /\ (forall x, In x post -> le h x = true).
Proof.
  revert h. induction l as [|x l IH]; intros h H; [discriminate|]. cbn [sorted fold_right] in H. change (fold_right _ [] l) with (sorted le l) in H.
  destruct (sorted le l) as [|y r] eqn:E.
  - injection H as <-. pose proof (sorted_perm l) as P. rewrite E in P. apply Permutation_sym, Permutation_nil in P. subst l. exists [], []. split; [reflexivity|]. split; intros ? [].
  - cbn [insert] in H. destruct (IH y eq_refl) as (pre & post & -> & H1 & H2). destruct (le x y) eqn:Exy; injection H as <-.
    + exists [], (pre ++ y :: post). split; [reflexivity|]. split; [intros ? []|]. intros z Hz. apply in_app_iff in Hz as [Hz|[<-|Hz]]; [|exact Exy|apply (le_trans _ y); auto].
      apply (le_trans _ y); [exact Exy|]. destruct (le_total z y) as [K|K]; [rewrite H1 in K by exact Hz; discriminate|exact K].
    + exists (x :: pre), post. split; [reflexivity|]. split; [|exact H2]. intros z [<-|Hz]; [exact Exy|now apply H1].
Qed.
End Sort.

(** the best match: of all matches it has the best rank, and of those of the same rank it is one of the largest size; there is one unless
    there is no match *)
Theorem C76_best : forall V (size : V -> Q) sets names requirement maximize minimize,
  (find_best size sets names requirement maximize minimize = None <-> find sets names requirement = []) /\
  forall r, find_best size sets names requirement maximize minimize = Some r -> In r (find sets names requirement) /\
    forall x, In x (find sets names requirement) ->
      match maximize, minimize with
      | Some fs, _ => lex_less (map (fun f => - f r)%Q fs) (map (fun f => - f x)%Q fs) \/ lex_same (map (fun f => - f r)%Q fs) (map (fun f => - f x)%Q fs) /\ lex_le (domain_size size x) (domain_size size r) = true
      | None, Some fs => lex_less (map (fun f => f r) fs) (map (fun f => f x) fs) \/ lex_same (map (fun f => f r) fs) (map (fun f => f x) fs) /\ lex_le (domain_size size x) (domain_size size r) = true
      | None, None => lex_le (domain_size size x) (domain_size size r) = true
      end.
Proof.
  intros V size sets names requirement maximize minimize. unfold find_best. set (c := find sets names requirement). set (by_size := fun a b => lex_le (domain_size size b) (domain_size size a)).
  assert (forall a b, by_size a b = true \/ by_size b a = true) as T1 by (intros a b; apply lex_total).
  assert (forall a b d, by_size a b = true -> by_size b d = true -> by_size a d = true) as T2 by (intros a b d H1 H2; exact (lex_trans _ _ _ H2 H1)).
  pose proof (sorted_perm by_size c) as P. pose proof (sorted_ordered by_size T1 T2 c) as O.
  assert (forall k : list V -> list Q, let s := sorted (fun a b => lex_le (k a) (k b)) (sorted by_size c) in (hd_error s = None <-> c = []) /\
    forall r, hd_error s = Some r -> In r c /\ forall x, In x c -> lex_less (k r) (k x) \/ lex_same (k r) (k x) /\ lex_le (domain_size size x) (domain_size size r) = true) as Hk.
  { intros k s. pose proof (sorted_perm (fun a b => lex_le (k a) (k b)) (sorted by_size c)) as P2. split.
    - split.
      + intros H. destruct s eqn:E; [|discriminate]. unfold s in E. rewrite E in P2. apply Permutation_sym, Permutation_nil in P2. rewrite P2 in P. now apply Permutation_sym, Permutation_nil in P.
      + intros E. unfold s. rewrite E. reflexivity.
    - intros r H. apply sorted_head in H as (pre & post & E & H1 & H2); [|intros; apply lex_total|intros a b d; apply lex_trans].
      split; [apply (Permutation_in _ (Permutation_sym P)); rewrite E; apply in_app_iff; right; now left|]. intros x Hx. apply (Permutation_in _ P) in Hx. rewrite E in Hx. apply in_app_iff in Hx as [Hx|[<-|Hx]].
      + left. destruct (lex_total (k r) (k x)) as [K|K]; [|rewrite H1 in K by exact Hx; discriminate]. apply lex_le_spec in K as [K|K]; [exact K|]. exfalso. specialize (H1 x Hx). assert (lex_le (k x) (k r) = true); [|congruence].
        apply lex_le_spec. right. clear -K. unfold lex_same in *. induction K; constructor; [now symmetry|assumption].
      + right. split; [|apply lex_le_spec; right]; [|]; clear; unfold lex_same; [induction (k r)|induction (domain_size size r)]; constructor; try reflexivity; assumption.
      + specialize (H2 x Hx). apply lex_le_spec in H2 as [K|K]; [now left|]. right. split; [exact K|]. exact (O pre r post x E Hx). }
  destruct maximize as [fs|]; [|destruct minimize as [fs|]]; cbn [rank].
  - exact (Hk (fun c => map (fun f => (- f c)%Q) fs)).
  - exact (Hk (fun c => map (fun f => f c) fs)).
  - split.
    + split; [intros H; destruct (sorted by_size c) eqn:E; [now apply Permutation_sym, Permutation_nil in P|discriminate]|intros E; rewrite E; reflexivity].
    + intros r H. apply (sorted_head by_size T1 T2) in H as (pre & post & E & H1 & H2). rewrite E. split; [apply in_app_iff; right; now left|]. intros x Hx. apply in_app_iff in Hx as [Hx|[<-|Hx]].
      * destruct (T1 r x) as [K|K]; [exact K|rewrite H1 in K by exact Hx; discriminate].
      * destruct (T1 r r) as [K|K]; exact K.
      * exact (H2 x Hx).
Qed.
Print Assumptions C76_best.
(** if both are given, minimize plays no part, not even between matches that maximize ranks the same *)
Theorem C76_both_refuted : exists (sets : list (list (string * Z))) (f g : list Z -> Q) r x, find_best inject_Z sets ["t"%string] None (Some [f]) (Some [g]) = Some r /\
  In x (find sets ["t"%string] None) /\ (f x == f r)%Q /\ (g x < g r)%Q.
Proof.
  exists [[("t"%string, 5)]; [("t"%string, 3)]], (fun _ => 1%Q), (fun c => inject_Z (hd 0 c)), [5], [3]. split; [vm_compute; reflexivity|]. split; [right; now left|]. split; reflexivity.
Qed.
Print Assumptions C76_both_refuted.

Definition three_sets : list (list (string * Z)) := [[("co2", 4); ("t", 7)]; [("t", 9); ("lat", 2)]; [("t", 8); ("co2", 6); ("lat", 1)]]%string.
Definition second (c : list Z) : Q := inject_Z (nth 1 c 0).
Example C76_example :
  find three_sets ["co2"; "t"]%string None = [[4; 7]; [6; 8]] /\ find three_sets ["co2"; "t"]%string (Some (fun d => Nat.eqb (List.length d) 3)) = [[6; 8]] /\
  find_best inject_Z three_sets ["co2"; "t"]%string None (Some [second]) None = Some [6; 8] /\ find_best inject_Z three_sets ["co2"; "t"]%string None None (Some [second]) = Some [4; 7] /\
  find_best inject_Z three_sets ["t"]%string None None None = Some [9] /\ find_best inject_Z three_sets ["u"]%string None None None = None /\ have three_sets "lat" = true /\ have three_sets "u" = false.
Proof. vm_compute. repeat split; reflexivity. Qed.
