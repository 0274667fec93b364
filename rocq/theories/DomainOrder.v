(** No data are lost and the search ends. *)
From Coq Require Import ZArith List Bool String Sorted Permutation Lia.
From Verif Require Import DomainModel DomainSpec DomainProofs.
Import ListNotations.
Open Scope Z_scope.

Lemma incl_refl2 (l : list (list Z)) : Forall2 (fun v w => forall x, In x v -> In x w) l l.
Proof. induction l; constructor; auto. Qed.
Lemma inside_refl d : inside d d.
Proof. split; [reflexivity | apply incl_refl2]. Qed.
Lemma inside_trans a b c : inside a b -> inside b c -> inside a c.
Proof.
  intros [N1 F1] [N2 F2]. split; [congruence|]. revert F1 F2. generalize (d_values a) (d_values b) (d_values c). intros x y z F1. revert z.
  induction F1; intros z F2; inversion F2; subst; constructor; auto.
Qed.
Lemma inside_antisym a b : proper a -> proper b -> inside a b -> inside b a -> a = b.
Proof.
  intros (_ & _ & Sa) (_ & _ & Sb) [N1 F1] [_ F2]. destruct a as [na va], b as [nb vb]. cbn in *. subst nb. f_equal.
  revert Sa Sb F2. induction F1 as [|v w va vb H F1 IH]; intros Sa Sb F2; [reflexivity|]. inversion Sa; subst. inversion Sb; subst. inversion F2; subst. f_equal; [|now apply IH].
  apply sorted_ext; auto. intros x. split; auto.
Qed.
Lemma F2_put {A} (R : A -> A -> Prop) l i v w : (forall x, R x x) -> nth_error l i = Some v -> R v w -> Forall2 R l (put l i w).
Proof. intros Hr. revert i. induction l as [|x l IH]; intros [|i] H Hv; cbn in *; try discriminate; [injection H as ->; constructor; [exact Hv|] | constructor; auto]. clear -Hr. induction l; constructor; auto. Qed.

(** every domain is kept, perhaps as part of a larger one *)
Definition kept (ds ds' : list domain) : Prop := forall d, In d ds -> exists d', In d' ds' /\ inside d d'.
Lemma kept_trans a b c : kept a b -> kept b c -> kept a c.
Proof. intros H1 H2 d Hd. destruct (H1 d Hd) as (e & He & I1). destruct (H2 e He) as (f & Hf & I2). exists f. split; [exact Hf | eapply inside_trans; eassumption]. Qed.
Lemma kept_incl a b : incl a b -> kept a b.
Proof. intros H d Hd. exists d. split; [now apply H | apply inside_refl]. Qed.
Lemma aggregate_kept ds s : (forall d, In d ds -> proper d) -> kept ds (aggregate ds s).
Proof.
  intros P d Hd. destruct (which_axis s (d_names d)) as [i|] eqn:E.
  - destruct (P d Hd) as (N & L & _). pose proof (which_nth _ _ _ E) as Ni.
    assert (Li : (i < List.length (d_values d))%nat) by (rewrite L; apply nth_error_Some; congruence).
    destruct (nth_error (d_values d) i) as [v|] eqn:Ev; [|apply nth_error_None in Ev; lia].
    destruct (proj2 (bins_spec ds s) (without_axis d i) v) as (vs & H1 & H2); [exists d, i; auto|].
    exists (Domain (d_names d) (put (d_values d) i (fold_right union [] vs))). split.
    + unfold aggregate. apply distinct_In. apply in_or_app. right. apply in_flat_map. exists (without_axis d i, vs). split; [exact H1|]. rewrite (with_without d i s _ E). now left.
    + split; [reflexivity|]. cbn. apply (F2_put _ _ _ v); [auto | exact Ev|]. intros x Hx. apply union_all_In. eauto.
  - exists d. split; [|apply inside_refl]. unfold aggregate. apply distinct_In. apply in_or_app. left. apply filter_In. rewrite E. auto.
Qed.
Lemma prime_kept pieces ds : (forall d, In d ds -> known pieces d) -> kept ds (prime_domains ds).
Proof.
  unfold prime_domains. generalize (axis_names ds) as l. intros l. revert ds. induction l as [|s l IH]; intros ds K; cbn [fold_left]; [apply kept_incl, incl_refl|].
  eapply kept_trans; [apply aggregate_kept; intros d Hd; now apply K|]. apply IH. now apply aggregate_known.
Qed.

(** ** removing what is contained in something else *)
Lemma below_spec a b : proper a -> proper b -> (forall s, In s (d_names a) <-> In s (d_names b)) -> d_names a = d_names b -> below a b = true -> inside a b.
Proof.
  intros (Na & La & _) (Nb & Lb & _) _ En H. apply andb_prop in H as [_ H]. rewrite forallb_forall in H. split; [exact En|].
  assert (Q : forall j v w, nth_error (d_values a) j = Some v -> nth_error (d_values b) j = Some w -> forall x, In x v -> In x w).
  { intros j v w Hv Hw. assert (Lj : (j < List.length (d_names a))%nat) by (rewrite <- La; apply nth_error_Some; congruence).
    destruct (nth_error (d_names a) j) as [s|] eqn:Es; [|apply nth_error_None in Es; lia]. assert (Es' : nth_error (d_names b) j = Some s) by congruence.
    specialize (H s). rewrite (nth_axis_values a s v j Na Es Hv), (nth_axis_values b s w j Nb Es' Hw) in H. apply subset_spec. apply H. apply axis_names_In. exists b. split; [now left|]. now apply nth_error_In in Es'. }
  assert (Ll : List.length (d_values a) = List.length (d_values b)) by congruence. clear -Q Ll. revert Q Ll. generalize (d_values a) (d_values b). induction l as [|v l IH]; intros [|w l'] Q Ll; try discriminate Ll; constructor.
  - exact (Q 0%nat v w eq_refl eq_refl).
  - apply IH; [intros j; exact (Q (S j)) | now injection Ll].
Qed.
Lemma F2_nth l l' j (v w : list Z) : Forall2 (fun v w => forall x, In x v -> In x w) l l' -> nth_error l j = Some v -> nth_error l' j = Some w -> forall x, In x v -> In x w.
Proof.
  intros F. revert j. induction F as [|a b l l' H F IH]; intros [|j] E1 E2; cbn in *; try discriminate; [|now apply (IH j)].
  injection E1 as <-. injection E2 as <-. exact H.
Qed.
Lemma inside_below a b : proper a -> proper b -> inside a b -> below a b = true.
Proof.
  intros (Na & La & _) (Nb & Lb & _) [En F]. unfold below. apply andb_true_intro. split.
  - apply same_names_eq. unfold axis_names. cbn [flat_map]. now rewrite En.
  - apply forallb_forall. intros s Hs. apply axis_names_In in Hs as (d & [<-|[]] & Hs). apply In_nth_error in Hs as [j Hj].
    assert (Lj : (j < List.length (d_values b))%nat) by (rewrite Lb; apply nth_error_Some; congruence).
    destruct (nth_error (d_values b) j) as [w|] eqn:Ew; [|apply nth_error_None in Ew; lia].
    assert (Lj' : (j < List.length (d_values a))%nat) by congruence. destruct (nth_error (d_values a) j) as [v|] eqn:Ev; [|apply nth_error_None in Ev; lia].
    rewrite (nth_axis_values b s w j Nb Hj Ew). rewrite <- En in Hj. rewrite (nth_axis_values a s v j Na Hj Ev). apply subset_spec.
    exact (F2_nth _ _ _ _ _ F Ev Ew).
Qed.
Lemma below_names a b : below a b = true -> forall s, In s (d_names a) <-> In s (d_names b).
Proof.
  intros H s. apply andb_prop in H as [H _]. apply same_names_eq in H. split; intros K.
  - assert (Q : In s (axis_names [a])) by (apply axis_names_In; exists a; cbn; auto). rewrite H in Q. apply axis_names_In in Q as (d & [<-|[]] & Q). exact Q.
  - assert (Q : In s (axis_names [b])) by (apply axis_names_In; exists b; cbn; auto). rewrite <- H in Q. apply axis_names_In in Q as (d & [<-|[]] & Q). exact Q.
Qed.

(** in a finite set with a strict order everything is below something maximal *)
Lemma filter_shorter {A} (f g : A -> bool) l : (forall x, In x l -> f x = true -> g x = true) -> (List.length (filter f l) <= List.length (filter g l))%nat.
Proof.
  induction l as [|x l IH]; cbn; intros H; [lia|]. assert (K : (List.length (filter f l) <= List.length (filter g l))%nat) by (apply IH; auto).
  destruct (f x) eqn:Ef; [rewrite (H x (or_introl eq_refl) Ef)|]; cbn; [lia|]. destruct (g x); cbn; lia.
Qed.
Lemma filter_strict {A} (f g : A -> bool) l y : (forall x, In x l -> f x = true -> g x = true) -> In y l -> f y = false -> g y = true -> (List.length (filter f l) < List.length (filter g l))%nat.
Proof.
  induction l as [|x l IH]; cbn; intros H Hy Ef Eg; [destruct Hy|]. destruct Hy as [->|Hy].
  - rewrite Ef, Eg. cbn. pose proof (filter_shorter f g l). assert (List.length (filter f l) <= List.length (filter g l))%nat by auto. lia.
  - assert (K : (List.length (filter f l) < List.length (filter g l))%nat) by (apply IH; auto). destruct (f x) eqn:Efx; [rewrite (H x (or_introl eq_refl) Efx)|]; cbn; [lia|]. destruct (g x); cbn; lia.
Qed.
Lemma maximal {A} (R : A -> A -> bool) l : (forall x, In x l -> R x x = false) -> (forall x y z, In x l -> In y l -> In z l -> R x y = true -> R y z = true -> R x z = true) ->
  forall x, In x l -> exists y, In y l /\ (y = x \/ R x y = true) /\ forall z, In z l -> R y z = false.
Proof.
  intros Irr Tr. assert (G : forall n x, In x l -> (List.length (filter (R x) l) < n)%nat -> exists y, In y l /\ (y = x \/ R x y = true) /\ forall z, In z l -> R y z = false).
  { induction n as [|n IH]; intros x Hx Hn; [lia|]. destruct (existsb (R x) l) eqn:E.
    - apply existsb_exists in E as (y & Hy & Rxy). destruct (IH y Hy) as (z & Hz & Rz & Mz).
      + assert (K : (List.length (filter (R y) l) < List.length (filter (R x) l))%nat) by (apply (filter_strict _ _ _ y); auto; intros z Hz Ryz; now apply (Tr x y z)). lia.
      + exists z. split; [exact Hz|]. split; [|exact Mz]. right. destruct Rz as [->|Rz]; [exact Rxy | now apply (Tr x y z)].
    - exists x. split; [exact Hx|]. split; [now left|]. intros z Hz. destruct (R x z) eqn:Rz; [|reflexivity]. exfalso.
      assert (existsb (R x) l = true) by (apply existsb_exists; eauto). congruence. }
  intros x Hx. apply (G (S (List.length (filter (R x) l)))); auto.
Qed.

Lemma NoDup_join {A} (l l' : list A) : NoDup l -> NoDup l' -> (forall x, In x l -> ~ In x l') -> NoDup (l ++ l').
Proof.
  induction 1 as [|x l Hx N IH]; intros N' D; cbn; [exact N'|]. constructor; [|apply IH; [exact N' | intros y Hy; apply D; now right]].
  intros H. apply in_app_or in H as [H|H]; [contradiction|]. exact (D x (or_introl eq_refl) H).
Qed.
Definition insideb (a b : domain) : bool :=
  same_names (d_names a) (d_names b) && (Nat.eqb (List.length (d_values a)) (List.length (d_values b)) && forallb (fun '(v, w) => subset v w) (combine (d_values a) (d_values b))).
Lemma insideb_spec a b : insideb a b = true <-> inside a b.
Proof.
  unfold insideb, inside. rewrite andb_true_iff, same_names_eq. apply and_iff_compat_l. rewrite andb_true_iff, Nat.eqb_eq.
  generalize (d_values a) (d_values b). induction l as [|v l IH]; intros [|w l']; cbn.
  - split; [constructor | auto].
  - split; [intros [H _]; discriminate | intros H; inversion H].
  - split; [intros [H _]; discriminate | intros H; inversion H].
  - rewrite andb_true_iff, subset_spec. split.
    + intros [H [H1 H2]]. constructor; [exact H1|]. apply IH. split; [now injection H | exact H2].
    + intros H. inversion H; subst. apply IH in H5 as [H5 H6]. auto.
Qed.
Section Ordered.
Context (pieces : list domain) (Hp : forall e, In e pieces -> proper e) (Ho : same_order pieces).
Notation known := (known pieces).
Lemma known_order a b : known a -> known b -> (forall s, In s (d_names a) <-> In s (d_names b)) -> d_names a = d_names b.
Proof.
  intros (_ & Na & _) (_ & Nb & _) H. apply in_map_iff in Na as (e & Ee & He). apply in_map_iff in Nb as (f & Ef & Hf). rewrite <- Ee, <- Ef. apply Ho; auto. now rewrite Ee, Ef.
Qed.
Lemma below_inside a b : known a -> known b -> (below a b = true <-> inside a b).
Proof.
  intros Ka Kb. split; intros H.
  - pose proof (below_names a b H) as Hn. apply below_spec; auto; [apply Ka | apply Kb | now apply known_order].
  - apply inside_below; auto; [apply Ka | apply Kb].
Qed.
Definition strictly (a b : domain) : bool := (if domain_dec a b then false else true) && below a b.
Lemma strictly_spec a b : known a -> known b -> (strictly a b = true <-> a <> b /\ inside a b).
Proof.
  intros Ka Kb. unfold strictly. rewrite andb_true_iff, (below_inside a b Ka Kb). destruct (domain_dec a b); intuition congruence.
Qed.
Lemma cleanup_spec ds : (forall d, In d ds -> known d) ->
  kept ds (cleanup ds) /\ (forall a b, In a (cleanup ds) -> In b (cleanup ds) -> inside a b -> a = b).
Proof.
  intros K.
  assert (In_c : forall y, In y (cleanup ds) <-> In y ds /\ forall z, In z ds -> strictly y z = false).
  { intros y. unfold cleanup. rewrite filter_In. fold (strictly y). split; intros [H1 H2]; (split; [exact H1|]).
    - intros z Hz. destruct (strictly y z) eqn:E; [|reflexivity]. exfalso. apply negb_true_iff in H2. change (existsb (strictly y) ds = false) in H2.
      assert (T : existsb (strictly y) ds = true) by (apply existsb_exists; exists z; auto). rewrite T in H2. discriminate.
    - change (negb (existsb (strictly y) ds) = true). apply negb_true_iff. destruct (existsb (strictly y) ds) eqn:E; [|reflexivity]. apply existsb_exists in E as (z & Hz & E). rewrite (H2 z Hz) in E. discriminate. }
  split.
  - intros d Hd. destruct (maximal strictly ds) with (x := d) as (y & Hy & Ry & My); auto.
    + intros x Hx. unfold strictly. destruct (domain_dec x x); [reflexivity | congruence].
    + intros x y z Hx Hy Hz R1 R2. apply strictly_spec in R1 as [N1 I1]; auto. apply strictly_spec in R2 as [N2 I2]; auto. apply strictly_spec; auto. split; [|eapply inside_trans; eassumption].
      intros ->. apply N2. apply inside_antisym; auto; [apply (K y Hy) | apply (K z Hz)].
    + exists y. split; [apply In_c; auto|]. destruct Ry as [->|Ry]; [apply inside_refl|]. apply strictly_spec in Ry; auto. tauto.
  - intros a b Ha Hb Iab. apply In_c in Ha as [Ha Ma]. apply In_c in Hb as [Hb _]. destruct (domain_dec a b) as [E|N]; [exact E|]. exfalso.
    assert (strictly a b = true) by (apply strictly_spec; auto). specialize (Ma b Hb). congruence.
Qed.
Lemma domains_kept fuel inner ds m : (forall d, In d ds -> known d) -> domains_loop fuel inner ds = Some m ->
  kept ds m /\ (forall a b, In a m -> In b m -> inside a b -> a = b).
Proof.
  revert ds. induction fuel as [|f IH]; intros ds K; cbn [domains_loop]; [discriminate|]. destruct (merge_all inner ds) as [l|] eqn:E; [|discriminate].
  destruct (merge_all_known pieces inner ds l K E) as [H1 H2]. destruct (cleanup_spec l H1) as [C1 C2]. assert (Kc : forall d, In d (cleanup l) -> known d) by (intros d Hd; apply H1; now apply cleanup_In).
  assert (Kd : kept ds (cleanup l)) by (eapply kept_trans; [apply kept_incl; exact H2 | exact C1]).
  cbv zeta. destruct (Nat.eqb _ _); [intros H; injection H as <-; auto|]. intros H. destruct (IH (cleanup l) Kc H) as [Q1 Q2]. split; [eapply kept_trans; eassumption | exact Q2].
Qed.

(** ** the search ends *)
Fixpoint sublists (l : list Z) : list (list Z) := match l with [] => [[]] | x :: l => sublists l ++ map (cons x) (sublists l) end.
Lemma sublists_In l : StronglySorted Z.lt l -> forall v, StronglySorted Z.lt v -> incl v l -> In v (sublists l).
Proof.
  induction 1 as [|x l S IH F]; intros v Sv Iv; cbn.
  - destruct v as [|y v]; [auto|]. exfalso. apply (Iv y). now left.
  - apply in_or_app. rewrite Forall_forall in F. destruct (in_dec Z.eq_dec x v) as [Hx|Hx].
    + right. destruct Sv as [|y v Sv G]; [destruct Hx|]. rewrite Forall_forall in G.
      assert (y = x). { destruct Hx as [->|Hx]; [reflexivity|]. specialize (G x Hx). destruct (Iv y (or_introl eq_refl)) as [->|Hy]; [reflexivity|]. specialize (F y Hy). lia. }
      subst y. apply in_map. apply IH; [exact Sv|]. intros z Hz. destruct (Iv z (or_intror Hz)) as [->|H]; [specialize (G z Hz); lia | exact H].
    + left. apply IH; [exact Sv|]. intros z Hz. destruct (Iv z Hz) as [->|H]; [contradiction | exact H].
Qed.
Fixpoint tuples (n : nat) (l : list (list Z)) : list (list (list Z)) :=
  match n with 0%nat => [[]] | S n => flat_map (fun v => map (cons v) (tuples n l)) l end.
Lemma tuples_In l vs : Forall (fun v => In v l) vs -> In vs (tuples (List.length vs) l).
Proof. induction 1 as [|v vs H F IH]; cbn; [auto|]. apply in_flat_map. exists v. split; [exact H | now apply in_map]. Qed.
Definition everything : list Z := fold_right union [] (flat_map d_values pieces).
Definition universe : list domain := flat_map (fun e => map (Domain (d_names e)) (tuples (List.length (d_names e)) (sublists everything))) pieces.
Definition bounded (d : domain) : Prop := known d /\ Forall (fun v => incl v everything) (d_values d).
Lemma universe_In d : bounded d -> In d universe.
Proof.
  intros [((N & L & S) & Nm & _) B]. apply in_map_iff in Nm as (e & Ee & He). unfold universe. apply in_flat_map. exists e. split; [exact He|]. destruct d as [n v]. cbn in *. subst n. apply in_map.
  rewrite <- L. apply tuples_In. rewrite Forall_forall in *. intros w Hw. apply sublists_In; [unfold everything; apply union_all_sorted | auto | auto].
Qed.
Lemma piece_bounded e : In e pieces -> bounded e.
Proof.
  intros He. split; [apply piece_known; auto|]. apply Forall_forall. intros v Hv x Hx. unfold everything. apply union_all_In. exists v. split; [apply in_flat_map; eauto | exact Hx].
Qed.
Lemma merge_into_bounded d1 d2 d : bounded d1 -> bounded d2 -> In d (merge_into d1 d2) -> Forall (fun v => incl v everything) (d_values d).
Proof.
  intros [K1 B1] [K2 B2] Hd. destruct (merge_In d1 d2 d (proj1 K1) Hd) as (i & s & v1 & Es & Ev & -> & _). cbn [d_values].
  assert (Ov : forall s v, incl v everything -> incl (other_values d2 s v) everything).
  { intros s' v Hv. unfold other_values. destruct (axis_values d2 s') as [w|] eqn:E; [|exact Hv]. apply axis_values_nth in E as (j & _ & E). apply nth_error_In in E. now apply (proj1 (Forall_forall _ _) B2). }
  assert (Iv : incl v1 everything) by (apply (proj1 (Forall_forall _ _) B1); now apply nth_error_In in Ev).
  apply Forall_put.
  - unfold zip. apply Forall_forall. intros w Hw. apply in_map_iff in Hw as ([s' v'] & <- & Hw). apply in_combine_r in Hw. intros x Hx. apply inter_In in Hx as [Hx _]. now apply (proj1 (Forall_forall _ _) B1 v' Hw).
  - intros x Hx. apply union_In in Hx as [Hx|Hx]; [now apply Iv | now apply (Ov s v1 Iv)].
Qed.
Lemma merge_bounded d1 d2 d : bounded d1 -> bounded d2 -> In d (merge_domains d1 d2) -> bounded d.
Proof.
  intros B1 B2 Hd. split; [apply (merge_known pieces d1 d2 (proj1 B1) (proj1 B2) d Hd)|]. revert Hd. unfold merge_domains.
  destruct (same_names _ _); [now apply merge_into_bounded|]. destruct (same_names _ _); [now apply merge_into_bounded | intros []].
Qed.
Lemma loop_ends ds : (forall d, In d ds -> bounded d) -> forall fuel merged, NoDup merged -> (forall d, In d merged -> bounded d) -> (List.length universe < fuel + List.length merged)%nat ->
  exists m, merge_loop fuel ds merged = Some m /\ NoDup m /\ forall d, In d m -> bounded d.
Proof.
  intros B. induction fuel as [|f IH]; intros merged N Bm Hf.
  - exfalso. assert (I : incl merged universe) by (intros d Hd; apply universe_In; auto). apply NoDup_incl_length in I; [lia | exact N].
  - cbn [merge_loop]. destruct (merge_round ds merged) as [|x new] eqn:E; [eauto|].
    assert (New : forall d, In d (x :: new) -> ~ In d merged /\ bounded d).
    { rewrite <- E. intros d Hd. apply round_In in Hd as (H1 & d1 & d2 & H2 & H3 & H4). split; [exact H1|]. apply (merge_bounded d1 d2); auto. }
    assert (Nn : NoDup (x :: new)) by (rewrite <- E; unfold merge_round, distinct; apply NoDup_nodup).
    apply IH.
    + apply NoDup_join; auto. intros d Hd Hn. now apply (New d Hn).
    + intros d Hd. apply in_app_or in Hd as [Hd|Hd]; [now apply Bm | now apply New].
    + rewrite app_length. cbn [List.length]. lia.
Qed.
Lemma aggregate_bounded ds s : (forall d, In d ds -> bounded d) -> forall d, In d (aggregate ds s) -> bounded d.
Proof.
  intros B d Hd. split; [apply (aggregate_known pieces ds s); [intros e He; now apply B | exact Hd]|].
  apply aggregate_In in Hd as [Hd|(d0 & i & vs & H0 & _ & _ & -> & Hv)]; [now apply B|]. cbn [d_values]. apply Forall_put; [now apply B|].
  intros x Hx. apply union_all_In in Hx as (v & Hvv & Hx). destruct (Hv v Hvv) as (d1 & j & H1 & _ & Ev & _). apply (proj1 (Forall_forall _ _) (proj2 (B d1 H1)) v); [now apply nth_error_In in Ev | exact Hx].
Qed.
Lemma prime_bounded ds : (forall d, In d ds -> bounded d) -> forall d, In d (prime_domains ds) -> bounded d.
Proof.
  unfold prime_domains. generalize (axis_names ds) as l. intros l. revert ds. induction l as [|s l IH]; intros ds B; cbn [fold_left]; [exact B|]. apply IH. now apply aggregate_bounded.
Qed.
Lemma prime_NoDup ds : NoDup ds -> NoDup (prime_domains ds).
Proof.
  unfold prime_domains. generalize (axis_names ds) as l. intros l. revert ds. induction l as [|s l IH]; intros ds N; cbn [fold_left]; [exact N|]. apply IH. apply NoDup_nodup.
Qed.
(** the parts of the universe that a list of domains covers *)
Definition covered (ds : list domain) : nat := List.length (filter (fun u => existsb (insideb u) ds) universe).
Lemma covered_le ds : (covered ds <= List.length universe)%nat.
Proof. unfold covered. induction universe as [|u l IH]; cbn; [lia|]. destruct (existsb _ _); cbn; lia. Qed.
Lemma covered_kept ds ds' : kept ds ds' -> forall u, existsb (insideb u) ds = true -> existsb (insideb u) ds' = true.
Proof.
  intros K u H. apply existsb_exists in H as (d & Hd & H). apply insideb_spec in H. destruct (K d Hd) as (d' & Hd' & I'). apply existsb_exists. exists d'. split; [exact Hd'|]. apply insideb_spec. eapply inside_trans; eassumption.
Qed.
Definition antichain (ds : list domain) : Prop := forall a b, In a ds -> In b ds -> inside a b -> a = b.
Lemma covered_grows ds ds' : (forall d, In d ds -> bounded d) -> (forall d, In d ds' -> bounded d) -> NoDup ds -> NoDup ds' -> antichain ds -> antichain ds' -> kept ds ds' ->
  (covered ds < covered ds')%nat \/ List.length ds' = List.length ds.
Proof.
  intros B B' N N' A A' K.
  destruct (existsb (fun u => existsb (insideb u) ds' && negb (existsb (insideb u) ds)) universe) eqn:E.
  - left. apply existsb_exists in E as (u & Hu & E). apply andb_prop in E as [E1 E2]. apply negb_true_iff in E2. unfold covered. apply (filter_strict _ _ _ u); auto. intros x _. now apply covered_kept.
  - right. assert (Q : forall d', In d' ds' -> exists d, In d ds /\ inside d' d).
    { intros d' Hd'. destruct (existsb (insideb d') ds) eqn:E2; [apply existsb_exists in E2 as (d & Hd & H); apply insideb_spec in H; eauto|]. exfalso.
      assert (T : existsb (fun u => existsb (insideb u) ds' && negb (existsb (insideb u) ds)) universe = true); [|congruence].
      apply existsb_exists. exists d'. split; [apply universe_In; auto|]. rewrite E2, andb_true_r. apply existsb_exists. exists d'. split; [exact Hd'|]. apply insideb_spec, inside_refl. }
    assert (I1 : incl ds' ds).
    { intros d' Hd'. destruct (Q d' Hd') as (d & Hd & H1). destruct (K d Hd) as (e & He & H2). assert (d' = e) by (apply A'; auto; eapply inside_trans; eassumption). subst e.
      assert (d' = d); [|now subst]. apply inside_antisym; auto; [apply (B' d' Hd') | apply (B d Hd)]. }
    assert (I2 : incl ds ds').
    { intros d Hd. destruct (K d Hd) as (d' & Hd' & H1). destruct (Q d' Hd') as (e & He & H2). assert (d = e) by (apply A; auto; eapply inside_trans; eassumption). subst e.
      assert (d = d'); [|now subst]. apply inside_antisym; auto; [apply (B d Hd) | apply (B' d' Hd')]. }
    apply Nat.le_antisymm; [now apply (NoDup_incl_length N') | now apply (NoDup_incl_length N)].
Qed.
Lemma round_ends inner ds : (forall d, In d ds -> bounded d) -> NoDup ds -> (List.length universe < inner)%nat ->
  exists m, merge_all inner ds = Some m /\ (forall d, In d (cleanup m) -> bounded d) /\ NoDup (cleanup m) /\ antichain (cleanup m) /\ kept ds (cleanup m).
Proof.
  intros B N Hi. destruct (loop_ends ds B inner ds N B) as (m & Em & Nm & Bm); [lia|]. exists (distinct (ds ++ m)). unfold merge_all. rewrite Em. split; [reflexivity|].
  assert (Bd : forall d, In d (distinct (ds ++ m)) -> bounded d) by (intros d Hd; apply (proj1 (distinct_In _ _)) in Hd; apply in_app_or in Hd as [Hd|Hd]; auto).
  destruct (cleanup_spec (distinct (ds ++ m))) as [C1 C2]; [intros d Hd; now apply Bd|].
  split; [intros d Hd; apply Bd; now apply cleanup_In|]. split; [apply NoDup_filter; apply NoDup_nodup|]. split; [exact C2|].
  eapply kept_trans; [|exact C1]. apply kept_incl. intros d Hd. apply distinct_In. apply in_or_app. now left.
Qed.
Lemma rounds_end inner fuel ds : (List.length universe < inner)%nat -> (forall d, In d ds -> bounded d) -> NoDup ds -> antichain ds -> (List.length universe < fuel + covered ds)%nat ->
  exists m, domains_loop fuel inner ds = Some m.
Proof.
  intros Hi. revert ds. induction fuel as [|f IH]; intros ds B N A Hf; [pose proof (covered_le ds); lia|]. cbn [domains_loop].
  destruct (round_ends inner ds B N Hi) as (m & -> & Bm & Nm & Am & Km). cbv zeta. destruct (Nat.eqb _ _) eqn:E; [eauto|]. apply IH; auto.
  destruct (covered_grows ds (cleanup m) B Bm N Nm A Am Km) as [H|H]; [lia|]. apply Nat.eqb_neq in E. congruence.
Qed.
Lemma search_ends2 fuel inner : (List.length universe + 2 <= fuel)%nat -> (List.length universe < inner)%nat -> exists m, domains_loop fuel inner (prime_domains (distinct pieces)) = Some m.
Proof.
  intros Hf Hi. assert (B : forall d, In d (prime_domains (distinct pieces)) -> bounded d) by (apply prime_bounded; intros d Hd; apply (proj1 (distinct_In _ _)) in Hd; now apply piece_bounded).
  assert (N : NoDup (prime_domains (distinct pieces))) by (apply prime_NoDup, NoDup_nodup). revert B N. generalize (prime_domains (distinct pieces)). intros ds B N.
  destruct fuel as [|f]; [lia|]. cbn [domains_loop].
  destruct (round_ends inner ds B N Hi) as (m & -> & Bm & Nm & Am & Km). cbv zeta. destruct (Nat.eqb _ _); [eauto|]. apply rounds_end; auto. lia.
Qed.
Lemma search_ends fuel : (List.length universe + 2 <= fuel)%nat -> exists m, get_domains fuel pieces = Some m.
Proof. intros Hf. apply search_ends2; lia. Qed.
End Ordered.
