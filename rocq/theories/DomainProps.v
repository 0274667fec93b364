(** C62: the datasets found in a collection of files. *)
From Coq Require Import ZArith List Bool String Sorted Lia.
From Verif Require Import DomainModel DomainSpec DomainProofs DomainOrder DomainJoin.
Import ListNotations.
Open Scope Z_scope.

(** C62: every place in every dataset found is a place in some file: the file has the variable, at that place, with no other axes than those of the dataset. *)
Theorem C62_sound : forall fuel pieces ds, (forall e, In e pieces -> proper e) -> get_domains fuel pieces = Some ds ->
  forall d, In d ds -> proper d /\ forall p, within p d -> exists e, In e pieces /\ within p e /\ incl (d_names e) (d_names d).
Proof.
  intros fuel pieces ds Hp H d Hd. unfold get_domains in H.
  assert (K0 : forall e, In e (distinct pieces) -> known pieces e) by (intros e He; apply (proj1 (distinct_In _ _)) in He; now apply piece_known; auto).
  pose proof (domains_known pieces fuel fuel _ ds (prime_known pieces _ K0) H d Hd) as (P & _ & Q). split; [exact P | exact Q].
Qed.
Print Assumptions C62_sound.

(** C62: nothing is lost and nothing is found twice: everything in the files is in a dataset, and no dataset is part of another. *)
Theorem C62_complete : forall fuel pieces ds, (forall e, In e pieces -> proper e) -> same_order pieces -> get_domains fuel pieces = Some ds ->
  (forall e, In e pieces -> exists d, In d ds /\ inside e d) /\ (forall a b, In a ds -> In b ds -> inside a b -> a = b).
Proof.
  intros fuel pieces ds Hp Ho H. unfold get_domains in H.
  assert (K0 : forall e, In e (distinct pieces) -> known pieces e) by (intros e He; apply (proj1 (distinct_In _ _)) in He; now apply piece_known; auto).
  destruct (domains_kept pieces Ho fuel fuel _ ds (prime_known pieces _ K0) H) as [H1 H2]. split; [|exact H2].
  intros e He. apply (kept_trans _ _ _ (prime_kept pieces _ K0) H1). now apply distinct_In.
Qed.
Print Assumptions C62_complete.

(** C62: the search ends. *)
Theorem C62_terminates : forall pieces, (forall e, In e pieces -> proper e) -> same_order pieces -> exists fuel0, forall fuel, (fuel0 <= fuel)%nat -> exists ds, get_domains fuel pieces = Some ds.
Proof. intros pieces Hp Ho. exists (List.length (universe pieces) + 2)%nat. intros fuel. now apply search_ends. Qed.
Print Assumptions C62_terminates.

(** C62: two pieces that fit together along an axis are in one dataset. *)
Theorem C62_joins : forall fuel pieces ds a b s p0, (forall e, In e pieces -> proper e) -> same_order pieces -> get_domains fuel pieces = Some ds ->
  In a pieces -> In b pieces -> d_names a = d_names b -> In s (d_names a) -> joint s p0 a b ->
  exists d, In d ds /\ d_names d = d_names a /\ forall p, joint s p a b -> within p d.
Proof.
  intros fuel pieces ds a b s p0 Hp Ho H Ha Hb En Hs J0. unfold get_domains in H.
  assert (K0 : forall e, In e (distinct pieces) -> known pieces e) by (intros e He; apply (proj1 (distinct_In _ _)) in He; now apply piece_known; auto).
  destruct (prime_kept pieces _ K0 a) as (a' & Ha' & Ia); [now apply distinct_In|]. destruct (prime_kept pieces _ K0 b) as (b' & Hb' & Ib); [now apply distinct_In|].
  pose proof (prime_known pieces _ K0) as Kp. revert H Kp Ha' Hb'. generalize (prime_domains (distinct pieces)). intros l H Kp Ha' Hb'.
  assert (J' : forall p, joint s p a b -> joint s p a' b') by (intros p; apply joint_inside; auto).
  assert (En' : d_names a' = d_names b') by (rewrite <- (proj1 Ia), <- (proj1 Ib); exact En).
  destruct (merge_joins a' b' s p0) as (d & Hd & Ed & Wd); [apply (Kp a' Ha') | apply (Kp b' Hb') | exact En' | rewrite <- (proj1 Ia); exact Hs | now apply J'|].
  destruct fuel as [|f]; [discriminate|]. cbn [domains_loop] in H. destruct (merge_all (S f) l) as [m|] eqn:Em; [|discriminate].
  destruct (merge_all_known pieces (S f) l m Kp Em) as [Km Il].
  assert (Hm : exists d', In d' m /\ d_names d' = d_names a /\ forall p, joint s p a b -> within p d').
  { destruct (domain_dec a' b') as [<-|Ne].
    - exists a'. split; [now apply Il|]. split; [symmetry; apply Ia|]. intros p Jp. now destruct (J' p Jp) as ([W|W] & _).
    - exists d. split; [|split; [rewrite Ed; symmetry; apply Ia | intros p Jp; apply Wd; now apply J']]. destruct Hd as [->|[->|Hd]]; [now apply Il | now apply Il|].
      unfold merge_all in Em. destruct (merge_loop (S f) l l) as [m'|] eqn:El; [|discriminate]. cbn [option_map] in Em. injection Em as <-. apply distinct_In. apply in_or_app. right.
      apply (loop_closed _ _ _ _ El a' b'); auto. destruct (loop_known pieces (S f) l Kp l m' Kp El) as [_ I']. now apply I'. }
  destruct Hm as (d' & Hd' & Ed' & Wd'). destruct (cleanup_spec pieces Ho m Km) as [C1 C2]. destruct (C1 d' Hd') as (e & He & Ie).
  assert (Kc : forall d, In d (cleanup m) -> known pieces d) by (intros x Hx; apply Km; now apply cleanup_In).
  assert (G : exists g, In g ds /\ inside e g).
  { cbv zeta in H. destruct (Nat.eqb _ _); [injection H as <-; exists e; split; [exact He | apply inside_refl]|]. destruct (domains_kept pieces Ho f (S f) _ ds Kc H) as [Q _]. now apply Q. }
  destruct G as (g & Hg & Ig). exists g. split; [exact Hg|]. split; [rewrite <- (proj1 Ig), <- (proj1 Ie); exact Ed'|].
  intros p Jp. apply (within_inside p e g); [apply (proj1 (Kc e He)) | exact Ig|]. apply (within_inside p d' e); [apply (proj1 (Km d' Hd')) | exact Ie | now apply Wd'].
Qed.
Print Assumptions C62_joins.

(** *** a case: two variables in three files *)
Local Open Scope string_scope.
Definition tlat := ["varlist"; "time"; "lat"].
Definition files3 := [Domain tlat [[0]; [1; 2]; [10; 20]]; Domain tlat [[0]; [3; 4]; [10; 20]]; Domain tlat [[1]; [2; 3]; [10; 20]]].
Lemma tlat_proper vs : List.length vs = 3%nat -> Forall (StronglySorted Z.lt) vs -> proper (Domain tlat vs).
Proof. intros L S. split; [|split; [exact L | exact S]]. repeat constructor; cbn; intuition discriminate. Qed.
Ltac sorted := repeat constructor; reflexivity.
Example files3_proper : forall e, In e files3 -> proper e.
Proof. intros e [<-|[<-|[<-|[]]]]; apply tlat_proper; try reflexivity; sorted. Qed.
Example files3_order : same_order files3.
Proof. intros a b [<-|[<-|[<-|[]]]] [<-|[<-|[<-|[]]]] _; reflexivity. Qed.
Example files3_found : get_domains 10 files3 = Some [Domain tlat [[0]; [1; 2; 3; 4]; [10; 20]]; Domain tlat [[0; 1]; [2; 3]; [10; 20]]].
Proof. vm_compute. reflexivity. Qed.
Example files3_joint : joint "time" (fun s => if String.eqb s "varlist" then 0 else if String.eqb s "time" then 2 else 10) (Domain tlat [[0]; [1; 2]; [10; 20]]) (Domain tlat [[0]; [3; 4]; [10; 20]]).
Proof.
  split; [left; intros [|[|[|j]]] s vs H1 H2; cbn in *; try (injection H1 as <-; injection H2 as <-; cbn; auto); destruct j; discriminate|].
  split; intros [|[|[|j]]] s vs Hne H1 H2; cbn in *; try (injection H1 as <-; injection H2 as <-; cbn; auto; now destruct Hne); destruct j; discriminate.
Qed.

(** C62, refuted part: variables with the same axes in another order. The time is put first before names are compared, so that each of two pieces with the same values is taken to be part of the other, and both are thrown away. *)
Theorem C62_order_refuted : let a := Domain ["varlist"; "time"; "lat"] [[0]; [1; 2]; [10; 20]] in let b := Domain ["varlist"; "lat"; "time"] [[0]; [10; 20]; [1; 2]] in
  proper a /\ proper b /\ get_domains 10 [a; b] = Some [].
Proof.
  split; [apply tlat_proper; [reflexivity | sorted]|]. split; [|vm_compute; reflexivity].
  split; [|split; [reflexivity | sorted]]. repeat constructor; cbn; intuition discriminate.
Qed.
Print Assumptions C62_order_refuted.

(** C62, refuted part: the search stops as soon as a round leaves the number of datasets unchanged, though it may have found new ones: these four pieces cover a rectangle that no dataset found contains. *)
Definition vll := ["varlist"; "lat"; "lon"].
Definition quilt := [Domain vll [[0]; [0; 2; 3]; [0; 1; 2]]; Domain vll [[0]; [0; 1]; [1]]; Domain vll [[0]; [1]; [0; 2; 3]]; Domain vll [[0]; [0; 2]; [0; 3]]].
Definition patch := Domain vll [[0]; [0; 1; 2]; [0; 1; 2; 3]].
Lemma vll_proper vs : List.length vs = 3%nat -> Forall (StronglySorted Z.lt) vs -> proper (Domain vll vs).
Proof. intros L S. split; [|split; [exact L | exact S]]. repeat constructor; cbn; intuition discriminate. Qed.
Lemma quilt_covers p : within p patch -> exists e, In e quilt /\ within p e.
Proof.
  intros W. pose proof (W 0%nat "varlist" [0] eq_refl eq_refl) as H0. pose proof (W 1%nat "lat" _ eq_refl eq_refl) as H1. pose proof (W 2%nat "lon" _ eq_refl eq_refl) as H2. cbn in H0, H1, H2.
  assert (G : forall v1 v2, In (p "lat") v1 -> In (p "lon") v2 -> within p (Domain vll [[0]; v1; v2])).
  { intros v1 v2 G1 G2 [|[|[|j]]] s vs E1 E2; cbn in *; try (injection E1 as <-; injection E2 as <-; assumption); destruct j; discriminate. }
  assert (Q : In (Domain vll [[0]; [0; 2; 3]; [0; 1; 2]]) quilt /\ In (Domain vll [[0]; [0; 1]; [1]]) quilt /\ In (Domain vll [[0]; [1]; [0; 2; 3]]) quilt /\ In (Domain vll [[0]; [0; 2]; [0; 3]]) quilt) by (cbn; auto 10).
  destruct Q as (Q1 & Q2 & Q3 & Q4).
  destruct H1 as [H1|[H1|[H1|[]]]]; destruct H2 as [H2|[H2|[H2|[H2|[]]]]];
   first [ exists (Domain vll [[0]; [0; 2; 3]; [0; 1; 2]]); split; [exact Q1 | apply G; rewrite <- ?H1, <- ?H2; cbn; auto; fail]
         | exists (Domain vll [[0]; [0; 1]; [1]]); split; [exact Q2 | apply G; rewrite <- ?H1, <- ?H2; cbn; auto; fail]
         | exists (Domain vll [[0]; [1]; [0; 2; 3]]); split; [exact Q3 | apply G; rewrite <- ?H1, <- ?H2; cbn; auto; fail]
         | exists (Domain vll [[0]; [0; 2]; [0; 3]]); split; [exact Q4 | apply G; rewrite <- ?H1, <- ?H2; cbn; auto; fail] ].
Qed.
Theorem C62_combinations_refuted : (forall e, In e quilt -> proper e) /\ same_order quilt /\ (forall p, within p patch -> exists e, In e quilt /\ within p e) /\
  exists ds, get_domains 20 quilt = Some ds /\ forall d, In d ds -> ~ inside patch d.
Proof.
  split; [intros e [<-|[<-|[<-|[<-|[]]]]]; apply vll_proper; try reflexivity; sorted|].
  split; [intros a b [<-|[<-|[<-|[<-|[]]]]] [<-|[<-|[<-|[<-|[]]]]] _; reflexivity|]. split; [exact quilt_covers|].
  assert (T : option_map (existsb (insideb patch)) (get_domains 20 quilt) = Some false) by (vm_compute; reflexivity).
  destruct (get_domains 20 quilt) as [ds|]; [|discriminate]. exists ds. split; [reflexivity|]. cbn [option_map] in T. injection T as T. intros d Hd Hi.
  assert (existsb (insideb patch) ds = true) by (apply existsb_exists; exists d; split; [exact Hd | now apply insideb_spec]). congruence.
Qed.
Print Assumptions C62_combinations_refuted.
