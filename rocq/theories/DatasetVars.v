(** Proofs about the variables of a dataset. *)
From Coq Require Import ZArith List Bool String Lia.
From Verif Require Import IndexModel IndexSpec IndexProofs ArrModel ArrProofs ViewModel AxisModel VarOpsModel DatasetModel DatasetNames DatasetAxes.
From Verif Require ViewProofs ConcatVar.
Import ListNotations.
Open Scope Z_scope.
Open Scope list_scope.
Notation length := List.length.

Fixpoint offset (d : namedict) (p : nat) : Z := match d, p with (_, eqs) :: d, S p => zlen eqs + offset d p | _, _ => 0 end.
Lemma offset_nonneg d p : 0 <= offset d p.
Proof. revert p. induction d as [|[n eqs] d IH]; intros [|p]; cbn [offset]; try lia. specialize (IH p). unfold zlen. lia. Qed.
Lemma offset_step d p q n eqs : (p < q)%nat -> nth_error d p = Some (n, eqs) -> offset d p + zlen eqs <= offset d q.
Proof.
  revert p q. induction d as [|[m es] d IH]; intros [|p] [|q] Hpq H; try lia; try discriminate H; cbn [offset].
  - injection H as -> ->. pose proof (offset_nonneg d q). lia.
  - cbn [nth_error] in H. specialize (IH p q ltac:(lia) H). lia.
Qed.
Section Rename.
Context (enc : string -> Z) (taken : list string).
Definition renamed (n : string) (id : Z) (i : nat) (h : axobj) : axobj := MkAx id (fresh taken n (S i)) (rename_axis enc (fresh taken n (S i)) (a_axis h)).
Lemma rename_eqs_In n i next eqs k b : In (k, b) (rename_eqs enc taken n i next eqs) <->
  exists j h t a, nth_error eqs j = Some (h :: t) /\ In a (h :: t) /\ k = a_id a /\ b = renamed n (next + Z.of_nat j) (i + j)%nat h.
Proof.
  revert i next. induction eqs as [|e eqs IH]; intros i next; cbn [rename_eqs].
  - split; [intros []|]. intros ([|j] & h & t & a & [=] & _).
  - rewrite in_app_iff, IH. split.
    + intros [H|(j & h & t & a & H1 & H2 & H3 & H4)].
      * destruct e as [|h t]; [destruct H|]. apply in_map_iff in H as (a & [= <- <-] & Ha). exists 0%nat, h, t, a. split; [reflexivity|]. split; [exact Ha|]. split; [reflexivity|].
        unfold renamed. rewrite Nat.add_0_r. f_equal. lia.
      * exists (S j), h, t, a. split; [exact H1|]. split; [exact H2|]. split; [exact H3|]. rewrite H4. unfold renamed. replace (i + S j)%nat with (S i + j)%nat by lia. f_equal. lia.
    + intros ([|j] & h & t & a & H1 & H2 & H3 & H4).
      * left. injection H1 as ->. subst k. apply in_map_iff. exists a. split; [|exact H2]. f_equal. rewrite H4. unfold renamed. rewrite Nat.add_0_r. f_equal. lia.
      * right. exists j, h, t, a. split; [exact H1|]. split; [exact H2|]. split; [exact H3|]. rewrite H4. unfold renamed. replace (i + S j)%nat with (S i + j)%nat by lia. f_equal. lia.
Qed.
Definition target (next : Z) (d : namedict) (p : nat) (n : string) (eqs : list (list axobj)) (j : nat) (h : axobj) : axobj :=
  if Nat.eqb (length eqs) 1 then h else renamed n (next + offset d p + Z.of_nat j) j h.
Lemma rename_axes_In next d k b : In (k, b) (rename_axes enc taken next d) <->
  exists p n eqs j h t a, nth_error d p = Some (n, eqs) /\ nth_error eqs j = Some (h :: t) /\ In a (h :: t) /\ k = a_id a /\ b = target next d p n eqs j h.
Proof.
  revert next. induction d as [|[m es] d IH]; intros next; cbn [rename_axes].
  - split; [intros []|]. intros ([|p] & n & eqs & j & h & t & a & [=] & _).
  - rewrite in_app_iff, IH.
    assert (In (k, b) (match es with [h :: t] => map (fun a => (a_id a, h)) (h :: t) | _ => rename_eqs enc taken m 0 next es end) <->
            exists j h t a, nth_error es j = Some (h :: t) /\ In a (h :: t) /\ k = a_id a /\ b = if Nat.eqb (length es) 1 then h else renamed m (next + Z.of_nat j) j h) as Hhead.
    { destruct es as [|e0 [|e1 es]].
      - cbv iota. rewrite rename_eqs_In. reflexivity.
      - destruct e0 as [|h0 t0].
        + cbv iota. rewrite rename_eqs_In. split; intros ([|j] & h & t & a & H & _); try discriminate H; destruct j; discriminate H.
        + cbn [length Nat.eqb]. rewrite in_map_iff. split.
          * intros (a & [= <- <-] & Ha). exists 0%nat, h0, t0, a. auto.
          * intros ([|j] & h & t & a & H & Ha & -> & ->); [|destruct j; discriminate H]. injection H as <- <-. exists a. auto.
      - destruct e0; cbv iota; rewrite rename_eqs_In; cbn [length Nat.eqb]; reflexivity. }
    rewrite Hhead. split.
    + intros [(j & h & t & a & H1 & H2 & H3 & H4)|(p & n & eqs & j & h & t & a & H0 & H1 & H2 & H3 & H4)].
      * exists 0%nat, m, es, j, h, t, a. split; [reflexivity|]. split; [exact H1|]. split; [exact H2|]. split; [exact H3|]. rewrite H4. unfold target. cbn [offset]. now rewrite Z.add_0_r.
      * exists (S p), n, eqs, j, h, t, a. split; [exact H0|]. split; [exact H1|]. split; [exact H2|]. split; [exact H3|]. rewrite H4. unfold target. cbn [offset]. now rewrite Z.add_assoc.
    + intros ([|p] & n & eqs & j & h & t & a & H0 & H1 & H2 & H3 & H4).
      * left. injection H0 as <- <-. exists j, h, t, a. split; [exact H1|]. split; [exact H2|]. split; [exact H3|]. rewrite H4. unfold target. cbn [offset]. now rewrite Z.add_0_r.
      * right. exists p, n, eqs, j, h, t, a. split; [exact H0|]. split; [exact H1|]. split; [exact H2|]. split; [exact H3|]. rewrite H4. unfold target. cbn [offset]. now rewrite Z.add_assoc.
Qed.
End Rename.

(** *** the new axis of each axis *)
Section NewAxes.
Context (enc : string -> Z) (next : Z) (P : list axobj) (Hc : coherent P) (Hnext : forall a, In a P -> a_id a < next).
Let d := clump P.
Let taken := map fst d.
Let l := rename_axes enc taken next d.
Definition slot (a : axobj) (p : nat) (eqs : list (list axobj)) (j : nat) (h : axobj) (t : list axobj) : Prop :=
  nth_error d p = Some (a_name a, eqs) /\ eqs = families_of (named (a_name a) P) /\ nth_error eqs j = Some (h :: t) /\ In a (h :: t).

Lemma coherent_named n : coherent (named n P).
Proof. intros a b Ha Hb. apply In_named in Ha as [Ha _], Hb as [Hb _]. now apply Hc. Qed.
Lemma slot_exists a : In a P -> exists p eqs j h t, slot a p eqs j h t.
Proof.
  intros Ha. destruct (clump_spec P) as (Hd & Hn & Hf). fold d in Hd, Hn, Hf.
  assert (In (a_name a) (map fst d)) as Hin by (apply Hn; now exists a).
  apply in_map_iff in Hin as ([n eqs] & E & Hin). cbn [fst] in E. subst n. pose proof (Hf _ _ Hin) as Ee. apply In_nth_error in Hin as (p & Hp).
  pose proof (families_inv _ (coherent_named (a_name a))) as [F1 F2 F3 F4 F5]. rewrite <- Ee in *.
  destruct (F3 a) as (j & e & Hj & Hae); [apply In_named; now split|]. destruct (F1 j e Hj) as (h & t & -> & _). exists p, eqs, j, h, t. now repeat split.
Qed.
Lemma slot_from a p eqs j h t : slot a p eqs j h t -> forall b, In b (h :: t) -> In b P /\ a_name b = a_name a.
Proof.
  intros (_ & E & Hj & _) b Hb. apply In_named. pose proof (families_inv _ (coherent_named (a_name a))) as [_ F2 _ _ _]. rewrite <- E in F2. eapply F2; eassumption.
Qed.
Lemma slot_inj a b p q eqs eqs' j k h t h' t' : slot a p eqs j h t -> slot b q eqs' k h' t' -> a_name a = a_name b -> eqs = eqs' /\ p = q /\ (j = k -> h = h' /\ t = t').
Proof.
  intros (H1 & H2 & H3 & _) (K1 & K2 & K3 & _) E. assert (eqs = eqs') as <- by congruence. split; [reflexivity|]. destruct (clump_spec P) as (Hd & _ & _). fold d in Hd. split.
  - apply (proj1 (NoDup_nth_error _) Hd); [rewrite map_length; apply nth_error_Some; congruence|]. rewrite !nth_error_map, H1, K1. cbn. congruence.
  - intros <-. rewrite H3 in K3. injection K3 as <- <-. auto.
Qed.
Lemma slot_once a p eqs j h t q eqs' k h' t' : slot a p eqs j h t -> slot a q eqs' k h' t' -> eqs = eqs' /\ p = q /\ j = k /\ h = h' /\ t = t'.
Proof.
  intros H K. destruct (slot_inj _ _ _ _ _ _ _ _ _ _ _ _ H K eq_refl) as (<- & <- & E). split; [reflexivity|]. split; [reflexivity|].
  assert (j = k) as <-; [|destruct (E eq_refl); auto]. destruct H as (_ & H2 & H3 & H4), K as (_ & _ & K3 & K4).
  pose proof (families_inv _ (coherent_named (a_name a))) as [_ _ _ F4 _]. rewrite <- H2 in F4. eapply F4; [exact H3|exact K3|exact H4|exact K4|reflexivity].
Qed.
Lemma new_axis_eq a p eqs j h t : In a P -> slot a p eqs j h t -> new_axis l a = Some (target enc taken next d p (a_name a) eqs j h).
Proof.
  intros Ha Hs. unfold new_axis. assert (forall k b, In (k, b) (List.rev l) -> k = a_id a -> b = target enc taken next d p (a_name a) eqs j h) as Huniq.
  { intros k b Hkb ->. apply in_rev in Hkb. apply rename_axes_In in Hkb as (q & n & eqs' & k' & h' & t' & a' & G1 & G2 & G3 & G4 & ->).
    destruct (clump_spec P) as (_ & _ & Hf). fold d in Hf. pose proof (Hf n eqs' (nth_error_In _ _ G1)) as Ee.
    assert (In a' P /\ a_name a' = n) as [Ha' Hn'].
    { apply In_named. pose proof (families_inv _ (coherent_named n)) as [_ F2 _ _ _]. rewrite <- Ee in F2. eapply F2; eassumption. }
    assert (a' = a) as -> by (apply Hc; auto). subst n.
    assert (slot a q eqs' k' h' t') as Hs' by (repeat split; assumption). destruct (slot_once _ _ _ _ _ _ _ _ _ _ _ Hs Hs') as (<- & <- & <- & <- & <-). reflexivity. }
  destruct (find _ (List.rev l)) as [[k b]|] eqn:E.
  - apply find_some in E as [E1 E2]. apply Z.eqb_eq in E2. f_equal. now apply (Huniq k b).
  - exfalso. destruct Hs as (H1 & H2 & H3 & H4).
    assert (In (a_id a, target enc taken next d p (a_name a) eqs j h) (List.rev l)) as K.
    { rewrite <- in_rev. apply rename_axes_In. exists p, (a_name a), eqs, j, h, t, a. auto. }
    apply (find_none _ _ E) in K. cbv beta in K. rewrite Z.eqb_refl in K. discriminate.
Qed.
Lemma taken_name a : In a P -> In (a_name a) taken.
Proof. intros Ha. apply (proj1 (proj2 (clump_spec P))). now exists a. Qed.

(* (A) *)
Lemma new_name_inj a a' b b' : (forall n, (length (families_of (named n P)) < 100)%nat) -> In a P -> In a' P -> new_axis l a = Some b -> new_axis l a' = Some b' -> a_name b = a_name b' -> b = b'.
Proof.
  intros H100 Ha Ha' Hb Hb' E. destruct (slot_exists a Ha) as (p & eqs & j & h & t & Hs). destruct (slot_exists a' Ha') as (q & eqs' & k & h' & t' & Hs').
  rewrite (new_axis_eq a _ _ _ _ _ Ha Hs) in Hb. rewrite (new_axis_eq a' _ _ _ _ _ Ha' Hs') in Hb'. injection Hb as <-. injection Hb' as <-.
  destruct (slot_from _ _ _ _ _ _ Hs h (or_introl eq_refl)) as [Hh Nh]. destruct (slot_from _ _ _ _ _ _ Hs' h' (or_introl eq_refl)) as [Hh' Nh'].
  assert (j < length eqs)%nat as Lj by (apply nth_error_Some; destruct Hs as (_ & _ & K & _); congruence).
  assert (k < length eqs')%nat as Lk by (apply nth_error_Some; destruct Hs' as (_ & _ & K & _); congruence).
  unfold target in *. destruct (Nat.eqb_spec (length eqs) 1) as [S1|S1], (Nat.eqb_spec (length eqs') 1) as [S2|S2].
  - rewrite Nh, Nh' in E. destruct (slot_inj _ _ _ _ _ _ _ _ _ _ _ _ Hs Hs' E) as (<- & <- & K). apply K. lia.
  - exfalso. cbn [a_name renamed] in E. apply (fresh_free taken (a_name a') (S k)). rewrite <- E. now apply taken_name.
  - exfalso. cbn [a_name renamed] in E. apply (fresh_free taken (a_name a) (S j)). rewrite E. now apply taken_name.
  - cbn [a_name renamed] in E. pose proof (H100 (a_name a)) as L1. pose proof (H100 (a_name a')) as L2. rewrite <- (proj1 (proj2 Hs)) in L1. rewrite <- (proj1 (proj2 Hs')) in L2.
    apply fresh_inj in E as [E Ejk]; [|lia|lia]. injection Ejk as <-. destruct (slot_inj _ _ _ _ _ _ _ _ _ _ _ _ Hs Hs' E) as (<- & <- & K). destruct (K eq_refl) as [<- _]. now rewrite E.
Qed.
(* (B) *)
Lemma new_id_inj a a' b b' : In a P -> In a' P -> new_axis l a = Some b -> new_axis l a' = Some b' -> a_id b = a_id b' -> b = b'.
Proof.
  intros Ha Ha' Hb Hb' E. destruct (slot_exists a Ha) as (p & eqs & j & h & t & Hs). destruct (slot_exists a' Ha') as (q & eqs' & k & h' & t' & Hs').
  rewrite (new_axis_eq a _ _ _ _ _ Ha Hs) in Hb. rewrite (new_axis_eq a' _ _ _ _ _ Ha' Hs') in Hb'. injection Hb as <-. injection Hb' as <-.
  destruct (slot_from _ _ _ _ _ _ Hs h (or_introl eq_refl)) as [Hh Nh]. destruct (slot_from _ _ _ _ _ _ Hs' h' (or_introl eq_refl)) as [Hh' Nh'].
  assert (j < length eqs)%nat as Lj by (apply nth_error_Some; destruct Hs as (_ & _ & K & _); congruence).
  assert (k < length eqs')%nat as Lk by (apply nth_error_Some; destruct Hs' as (_ & _ & K & _); congruence).
  pose proof (Hnext h Hh). pose proof (Hnext h' Hh'). pose proof (offset_nonneg d p). pose proof (offset_nonneg d q).
  unfold target in *. destruct (Nat.eqb_spec (length eqs) 1) as [S1|S1], (Nat.eqb_spec (length eqs') 1) as [S2|S2]; cbn [a_id renamed] in E; try lia.
  - now apply Hc.
  - destruct (Nat.lt_trichotomy p q) as [L|[L|L]].
    + exfalso. pose proof (offset_step d p q _ _ L (proj1 Hs)) as K. unfold zlen in K. lia.
    + subst q. assert (j = k) as <- by lia. assert (a_name a = a_name a') as En by (pose proof (proj1 Hs); pose proof (proj1 Hs'); congruence).
      destruct (slot_inj _ _ _ _ _ _ _ _ _ _ _ _ Hs Hs' En) as (<- & _ & K). destruct (K eq_refl) as [<- _]. now rewrite En.
    + exfalso. pose proof (offset_step d q p _ _ L (proj1 Hs')) as K. unfold zlen in K. lia.
Qed.
(* (C) *)
Lemma new_axis_from a : In a P -> exists b r, new_axis l a = Some b /\ In r P /\ a_name r = a_name a /\ (a = r \/ axis_eq (a_axis a) (a_axis r) = true) /\
  ((length (families_of (named (a_name a) P)) = 1%nat /\ b = r) \/
   (length (families_of (named (a_name a) P)) <> 1%nat /\ next <= a_id b /\ a_axis b = rename_axis enc (a_name b) (a_axis r) /\ ~ In (a_name b) taken)).
Proof.
  intros Ha. destruct (slot_exists a Ha) as (p & eqs & j & h & t & Hs). destruct (slot_from _ _ _ _ _ _ Hs h (or_introl eq_refl)) as [Hh Nh].
  exists (target enc taken next d p (a_name a) eqs j h), h. split; [exact (new_axis_eq a _ _ _ _ _ Ha Hs)|]. split; [exact Hh|]. split; [exact Nh|]. split.
  - destruct Hs as (_ & H2 & H3 & [<-|H4]); [now left|right]. pose proof (families_inv _ (coherent_named (a_name a))) as [F1 _ _ _ _]. rewrite <- H2 in F1.
    destruct (F1 j _ H3) as (h' & t' & [= <- <-] & K). now apply K.
  - rewrite <- (proj1 (proj2 Hs)). unfold target. destruct (Nat.eqb_spec (length eqs) 1) as [S1|S1]; [left; now split|right]. split; [exact S1|]. cbn [a_id a_axis a_name renamed].
    split; [pose proof (offset_nonneg d p); lia|]. split; [reflexivity|]. apply fresh_free.
Qed.
(* (D) *)
Lemma new_axis_shared a a' b b' :
  (forall x, In x P -> axis_eq (a_axis x) (a_axis x) = true) ->
  (forall x y, In x P -> In y P -> axis_eq (a_axis x) (a_axis y) = true -> axis_eq (a_axis y) (a_axis x) = true) ->
  (forall x y z, In x P -> In y P -> In z P -> axis_eq (a_axis x) (a_axis y) = true -> axis_eq (a_axis y) (a_axis z) = true -> axis_eq (a_axis x) (a_axis z) = true) ->
  In a P -> In a' P -> new_axis l a = Some b -> new_axis l a' = Some b' -> (b = b' <-> a_name a = a_name a' /\ axis_eq (a_axis a) (a_axis a') = true).
Proof.
  intros Hrefl Hsym Htrans Ha Ha' Hb Hb'. destruct (slot_exists a Ha) as (p & eqs & j & h & t & Hs). destruct (slot_exists a' Ha') as (q & eqs' & k & h' & t' & Hs').
  rewrite (new_axis_eq a _ _ _ _ _ Ha Hs) in Hb. rewrite (new_axis_eq a' _ _ _ _ _ Ha' Hs') in Hb'. injection Hb as <-. injection Hb' as <-.
  destruct (slot_from _ _ _ _ _ _ Hs h (or_introl eq_refl)) as [Hh Nh]. destruct (slot_from _ _ _ _ _ _ Hs' h' (or_introl eq_refl)) as [Hh' Nh'].
  assert (j < length eqs)%nat as Lj by (apply nth_error_Some; destruct Hs as (_ & _ & K & _); congruence).
  assert (k < length eqs')%nat as Lk by (apply nth_error_Some; destruct Hs' as (_ & _ & K & _); congruence).
  assert (forall x px ex jx hx tx, In x P -> slot x px ex jx hx tx -> axis_eq (a_axis x) (a_axis hx) = true) as Hhead.
  { intros x px ex jx hx tx Hx (_ & H2 & H3 & [->|H4]); [now apply Hrefl|]. pose proof (families_inv _ (coherent_named (a_name x))) as [F1 _ _ _ _]. rewrite <- H2 in F1.
    destruct (F1 jx _ H3) as (h0 & t0 & [= <- <-] & K). now apply K. }
  pose proof (Hhead a _ _ _ _ _ Ha Hs) as Eh. pose proof (Hhead a' _ _ _ _ _ Ha' Hs') as Eh'. split.
  - intros E. assert (a_name a = a_name a' /\ (j = k)) as [En Ejk].
    { unfold target in E. destruct (Nat.eqb_spec (length eqs) 1) as [S1|S1], (Nat.eqb_spec (length eqs') 1) as [S2|S2].
      - split; [congruence|lia].
      - exfalso. pose proof (Hnext h Hh). pose proof (offset_nonneg d q). rewrite E in *. cbn [a_id renamed] in *. lia.
      - exfalso. pose proof (Hnext h' Hh'). pose proof (offset_nonneg d p). rewrite <- E in *. cbn [a_id renamed] in *. lia.
      - apply (f_equal a_id) in E. cbn [a_id renamed] in E. destruct (Nat.lt_trichotomy p q) as [L|[L|L]].
        + exfalso. pose proof (offset_step d p q _ _ L (proj1 Hs)) as K. unfold zlen in K. lia.
        + subst q. split; [pose proof (proj1 Hs); pose proof (proj1 Hs'); congruence|lia].
        + exfalso. pose proof (offset_step d q p _ _ L (proj1 Hs')) as K. unfold zlen in K. lia. }
    split; [exact En|]. destruct (slot_inj _ _ _ _ _ _ _ _ _ _ _ _ Hs Hs' En) as (<- & <- & K). destruct (K Ejk) as [<- _].
    apply (Htrans a h a'); auto.
  - intros [En Eaa]. destruct (slot_inj _ _ _ _ _ _ _ _ _ _ _ _ Hs Hs' En) as (<- & <- & K).
    pose proof (families_inv _ (coherent_named (a_name a))) as [_ _ _ _ F5]. rewrite <- (proj1 (proj2 Hs)) in F5. destruct Hs as (_ & _ & H3 & H4), Hs' as (_ & _ & K3 & K4).
    destruct (Nat.lt_trichotomy j k) as [L|[<-|L]].
    + exfalso. pose proof (F5 j k h t _ a' L H3 K3 K4) as F. assert (axis_eq (a_axis a') (a_axis h) = true) by (apply (Htrans a' a h); auto). congruence.
    + destruct (K eq_refl) as [<- _]. now rewrite En.
    + exfalso. pose proof (F5 k j h' t' _ a L K3 H3 H4) as F. assert (axis_eq (a_axis a) (a_axis h') = true) by (apply (Htrans a a' h'); auto). congruence.
Qed.
(* (E) *)
Lemma one_family n : (exists a, In a P /\ a_name a = n) -> (forall a b, In a P -> In b P -> a_name a = n -> a_name b = n -> a = b \/ axis_eq (a_axis a) (a_axis b) = true) ->
  length (families_of (named n P)) = 1%nat.
Proof.
  intros (a & Ha & En) Hall. pose proof (families_inv _ (coherent_named n)) as [F1 F2 F3 F4 F5]. set (eqs := families_of (named n P)) in *.
  destruct (F3 a) as (i & e & Hi & _); [now apply In_named|]. destruct eqs as [|e0 [|e1 r]]; [destruct i; discriminate|reflexivity|exfalso].
  destruct (F1 0%nat e0 eq_refl) as (h & t & -> & _). destruct (F1 1%nat e1 eq_refl) as (h' & t' & -> & _).
  pose proof (F5 0%nat 1%nat h t _ h' ltac:(lia) eq_refl eq_refl (or_introl eq_refl)) as N.
  pose proof (F2 0%nat _ h eq_refl (or_introl eq_refl)) as [I1 N1]%In_named. pose proof (F2 1%nat _ h' eq_refl (or_introl eq_refl)) as [I2 N2]%In_named.
  destruct (Hall h' h I2 I1 N2 N1) as [E|E]; [|congruence]. pose proof (F4 0%nat 1%nat _ _ h h' eq_refl eq_refl (or_introl eq_refl) (or_introl eq_refl)) as K. rewrite E in K. specialize (K eq_refl). discriminate.
Qed.
Lemma few_families n : (forall hs, incl hs (named n P) -> (forall i j h h', (i < j)%nat -> nth_error hs i = Some h -> nth_error hs j = Some h' -> h <> h' /\ axis_eq (a_axis h') (a_axis h) = false) -> (length hs < 100)%nat) ->
  (length (families_of (named n P)) < 100)%nat.
Proof.
  intros H. pose proof (families_inv _ (coherent_named n)) as [F1 F2 F3 F4 F5]. set (eqs := families_of (named n P)) in *.
  specialize (H (flat_map (fun e => match e with h :: _ => [h] | [] => [] end) eqs)).
  assert (forall L, (forall i e, nth_error L i = Some e -> exists h t, e = h :: t) -> length (flat_map (fun e : list axobj => match e with h :: _ => [h] | [] => [] end) L) = length L /\
          forall i h, nth_error (flat_map (fun e : list axobj => match e with h :: _ => [h] | [] => [] end) L) i = Some h -> exists t, nth_error L i = Some (h :: t)) as Hflat.
  { clear. induction L as [|e L IH]; intros HL; [split; [reflexivity|intros [|i]; discriminate]|]. destruct (HL 0%nat e eq_refl) as (h & t & ->).
    destruct (IH (fun i e H => HL (S i) e H)) as [I1 I2]. cbn [flat_map app length]. split; [now rewrite I1|]. intros [|i] h' E; [injection E as <-; now exists t|]. now apply I2. }
  destruct (Hflat eqs) as [L1 L2]; [intros i e Hi; destruct (F1 i e Hi) as (h & t & E & _); now exists h, t|]. rewrite <- L1. apply H.
  - intros h Hh. apply In_nth_error in Hh as (i & Hi). apply L2 in Hi as (t & Hi). eapply F2; [exact Hi|now left].
  - intros i j h h' Hij Hi Hj. apply L2 in Hi as (t & Hi), Hj as (t' & Hj). split; [|apply (F5 i j h t (h' :: t') h' Hij Hi Hj); now left].
    intros <-. assert (i = j); [|lia]. apply (F4 i j _ _ h h Hi Hj); [now left|now left|reflexivity].
Qed.
End NewAxes.
