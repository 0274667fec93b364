(** Proofs about the axes of a dataset. *)
From Coq Require Import ZArith List Bool String Lia.
From Verif Require Import IndexModel IndexSpec IndexProofs ArrModel ArrProofs ViewModel AxisModel VarOpsModel DatasetModel DatasetNames.
From Verif Require ViewProofs.
Import ListNotations.
Open Scope Z_scope.
Open Scope list_scope.
Notation length := List.length.

(** objects with the same identity are the same *)
Definition coherent (P : list axobj) : Prop := forall a b, In a P -> In b P -> a_id a = a_id b -> a = b.

Definition families_of (P : list axobj) : list (list axobj) := fold_left (fun l a => add_axis a l) P [].
Definition named (n : string) (P : list axobj) : list axobj := filter (fun a => String.eqb (a_name a) n) P.

Lemma families_snoc P a : families_of (P ++ [a]) = add_axis a (families_of P).
Proof. unfold families_of. now rewrite fold_left_app. Qed.
Lemma clump_snoc P a : clump (P ++ [a]) = clump1 a (clump P).
Proof. unfold clump. now rewrite fold_left_app. Qed.
Lemma named_snoc n P a : named n (P ++ [a]) = if String.eqb (a_name a) n then named n P ++ [a] else named n P.
Proof. unfold named. rewrite filter_app. cbn [filter]. destruct (String.eqb (a_name a) n); [reflexivity|apply app_nil_r]. Qed.
Lemma In_named n P a : In a (named n P) <-> In a P /\ a_name a = n.
Proof. unfold named. rewrite filter_In, String.eqb_eq. tauto. Qed.

Lemma clump1_names a d : map fst (clump1 a d) = if mem (a_name a) (map fst d) then map fst d else map fst d ++ [a_name a].
Proof.
  induction d as [|[n eqs] d IH]; [reflexivity|]. cbn [clump1 map fst mem existsb]. destruct (String.eqb (a_name a) n) eqn:E; cbn [orb map fst]; [reflexivity|].
  rewrite IH. unfold mem. destruct (existsb _ _); reflexivity.
Qed.
Lemma clump1_In a d n eqs : NoDup (map fst d) -> (In (n, eqs) (clump1 a d) <->
  (n <> a_name a /\ In (n, eqs) d) \/ (n = a_name a /\ exists old, (In (n, old) d \/ (~ In n (map fst d) /\ old = [])) /\ eqs = add_axis a old)).
Proof.
  induction d as [|[m es] d IH]; intros Hd.
  - cbn [clump1 In map]. split.
    + intros [[= <- <-]|[]]. right. split; [reflexivity|]. exists []. split; [right; split; [intros []|reflexivity]|reflexivity].
    + intros [[_ []]|(-> & old & [[]|[_ ->]] & ->)]. now left.
  - inversion Hd as [|? ? Hm Hd']; subst. cbn [clump1]. destruct (String.eqb_spec (a_name a) m) as [<-|Hne].
    + cbn [In]. split.
      * intros [[= <- <-]|H]; [right; split; [reflexivity|]; exists es; split; [left; now left|reflexivity]|].
        left. split; [|now right]. intros ->. apply Hm. now apply (in_map fst) in H.
      * intros [[Hn [[= <- <-]|H]]|(-> & old & [[[= <-]|H]|[N _]] & ->)].
        -- congruence.
        -- now right.
        -- now left.
        -- exfalso. apply Hm. now apply (in_map fst) in H.
        -- exfalso. apply N. now left.
    + cbn [In]. rewrite IH by assumption. cbn [map fst In]. split.
      * intros [[= <- <-]|[[H1 H2]|(-> & old & [H|[N ->]] & ->)]].
        -- left. split; [congruence|now left].
        -- left. split; [exact H1|now right].
        -- right. split; [reflexivity|]. exists old. split; [left; now right|reflexivity].
        -- right. split; [reflexivity|]. exists []. split; [right; split; [intros [E|E]; [congruence|contradiction]|reflexivity]|reflexivity].
      * intros [[H1 [[= <- <-]|H2]]|(-> & old & [[[= E _]|H]|[N ->]] & ->)].
        -- now left.
        -- right. left. split; assumption.
        -- congruence.
        -- right. right. split; [reflexivity|]. exists old. split; [now left|reflexivity].
        -- right. right. split; [reflexivity|]. exists []. split; [right; split; [intros E; apply N; now right|reflexivity]|reflexivity].
Qed.
(* the dictionary: for every name of an axis, the families of the axes with that name *)
Lemma clump_spec P : NoDup (map fst (clump P)) /\ (forall n, In n (map fst (clump P)) <-> exists a, In a P /\ a_name a = n) /\
  forall n eqs, In (n, eqs) (clump P) -> eqs = families_of (named n P).
Proof.
  induction P as [|a P (I1 & I2 & I3)] using rev_ind; [split; [constructor|]; split; [intros n; split; [intros []|intros (? & [] & _)]|intros ? ? []]|].
  rewrite clump_snoc. assert (forall n, In n (map fst (clump1 a (clump P))) <-> In n (map fst (clump P)) \/ n = a_name a) as Hn.
  { intros n. rewrite clump1_names. destruct (mem (a_name a) (map fst (clump P))) eqn:E.
    - apply mem_In in E. split; [now left|]. intros [H| ->]; assumption.
    - rewrite in_app_iff. cbn [In]. intuition congruence. }
  split; [|split].
  - rewrite clump1_names. destruct (mem (a_name a) (map fst (clump P))) eqn:E; [exact I1|]. apply mem_not in E.
    clear -I1 E. induction (map fst (clump P)) as [|m l IH]; [repeat constructor; intros []|]. inversion I1; subst. cbn [app]. constructor.
    + rewrite in_app_iff. intros [K|[K|[]]]; [contradiction|]. apply E. now left.
    + apply IH; [assumption|]. intros K. apply E. now right.
  - intros n. rewrite Hn, I2. split.
    + intros [(b & Hb & E)| ->]; [exists b|exists a]; rewrite in_app_iff; cbn [In]; auto.
    + intros (b & Hb & E). apply in_app_iff in Hb as [Hb|[->|[]]]; [left; now exists b|right; congruence].
  - intros n eqs H. apply clump1_In in H; [|exact I1]. rewrite named_snoc. destruct H as [[Hne H]|(-> & old & H & ->)].
    + destruct (String.eqb_spec (a_name a) n); [congruence|]. now apply I3.
    + rewrite String.eqb_refl, families_snoc. f_equal. destruct H as [H|[N ->]]; [now apply I3|].
      assert (named (a_name a) P = []) as ->; [|reflexivity]. destruct (named (a_name a) P) as [|b l] eqn:E; [reflexivity|]. exfalso. apply N. apply I2.
      assert (In b (named (a_name a) P)) as Hb by (rewrite E; now left). apply In_named in Hb. now exists b.
Qed.

(** *** families *)
Record fam_inv (Q : list axobj) (eqs : list (list axobj)) : Prop := {
  f_head : forall i e, nth_error eqs i = Some e -> exists h t, e = h :: t /\ forall a, In a t -> axis_eq (a_axis a) (a_axis h) = true;
  f_from : forall i e a, nth_error eqs i = Some e -> In a e -> In a Q;
  f_all : forall a, In a Q -> exists i e, nth_error eqs i = Some e /\ In a e;
  f_once : forall i j e e' a b, nth_error eqs i = Some e -> nth_error eqs j = Some e' -> In a e -> In b e' -> a_id a = a_id b -> i = j;
  f_apart : forall i j h t e a, (i < j)%nat -> nth_error eqs i = Some (h :: t) -> nth_error eqs j = Some e -> In a e -> axis_eq (a_axis a) (a_axis h) = false }.

Lemma join_spec a eqs : (forall i e, nth_error eqs i = Some e -> e <> []) ->
  (exists i h t, nth_error eqs i = Some (h :: t) /\ axis_eq (a_axis a) (a_axis h) = true /\
     (forall j h' t', (j < i)%nat -> nth_error eqs j = Some (h' :: t') -> axis_eq (a_axis a) (a_axis h') = false) /\
     join_family a eqs = set_at eqs i ((h :: t) ++ [a])) \/
  ((forall j h' t', nth_error eqs j = Some (h' :: t') -> axis_eq (a_axis a) (a_axis h') = false) /\ join_family a eqs = eqs ++ [[a]]).
Proof.
  induction eqs as [|[|h t] eqs IH]; intros Hne.
  - right. split; [intros [|j] ? ? [=]|reflexivity].
  - exfalso. exact (Hne 0%nat [] eq_refl eq_refl).
  - cbn [join_family]. destruct (axis_eq (a_axis a) (a_axis h)) eqn:E.
    + left. exists 0%nat, h, t. split; [reflexivity|]. split; [exact E|]. split; [intros; lia|reflexivity].
    + destruct (IH (fun i e H => Hne (S i) e H)) as [(i & h' & t' & H1 & H2 & H3 & ->)|[H ->]].
      * left. exists (S i), h', t'. split; [exact H1|]. split; [exact H2|]. split; [|reflexivity]. intros [|j] h'' t'' Hj Hn; [injection Hn as <- <-; exact E|]. apply (H3 j h'' t''); [lia|exact Hn].
      * right. split; [|reflexivity]. intros [|j] h'' t'' Hn; [injection Hn as <- <-; exact E|]. exact (H j h'' t'' Hn).
Qed.
Lemma present_spec a eqs : existsb (fun e => existsb (fun b => a_id a =? a_id b) e) eqs = true <-> exists i e b, nth_error eqs i = Some e /\ In b e /\ a_id a = a_id b.
Proof.
  rewrite existsb_exists. split.
  - intros (e & He & H). apply existsb_exists in H as (b & Hb & E). apply Z.eqb_eq in E. apply In_nth_error in He as (i & Hi). now exists i, e, b.
  - intros (i & e & b & Hi & Hb & E). exists e. split; [eapply nth_error_In, Hi|]. apply existsb_exists. exists b. split; [exact Hb|]. now apply Z.eqb_eq.
Qed.
Lemma families_inv Q : coherent Q -> fam_inv Q (families_of Q).
Proof.
  induction Q as [|a Q IH] using rev_ind; intros Hc.
  - split; try (intros [|i]; discriminate); try (intros ? []); intros [|i] j; discriminate.
  - assert (coherent Q) as HcQ by (intros x y Hx Hy; apply Hc; apply in_app_iff; now left). specialize (IH HcQ). destruct IH as [F1 F2 F3 F4 F5].
    rewrite families_snoc. set (eqs := families_of Q) in *. unfold add_axis. destruct (existsb _ _) eqn:E.
    + apply present_spec in E as (i & e & b & Hi & Hb & Eid). assert (a = b) as <-.
      { apply Hc; [apply in_app_iff; right; now left|apply in_app_iff; left; eapply F2; eassumption|exact Eid]. }
      split; [exact F1| | |exact F4|exact F5].
      * intros j e' x Hj Hx. apply in_app_iff. left. eapply F2; eassumption.
      * intros x Hx. apply in_app_iff in Hx as [Hx|[<-|[]]]; [now apply F3|]. now exists i, e.
    + assert (forall i e b, nth_error eqs i = Some e -> In b e -> a_id a <> a_id b) as Hnew.
      { intros i e b Hi Hb Eid. assert (false = true) as K; [|discriminate]. rewrite <- E. apply present_spec. now exists i, e, b. }
      assert (forall i e, nth_error eqs i = Some e -> e <> []) as Hne by (intros i e Hi; destruct (F1 i e Hi) as (h & t & -> & _); discriminate).
      destruct (join_spec a eqs Hne) as [(i & h & t & Hi & Ha & Hb & ->)|[Hb ->]].
      * assert (i < length eqs)%nat as Hli by (apply nth_error_Some; congruence).
        assert (forall j e, nth_error (set_at eqs i ((h :: t) ++ [a])) j = Some e -> (j = i /\ e = (h :: t) ++ [a]) \/ (j <> i /\ nth_error eqs j = Some e)) as Hset.
        { intros j e. rewrite ViewProofs.nth_error_set_at by exact Hli. destruct (Nat.eqb_spec i j) as [->|N]; [intros [= <-]; now left|]. intros H. right. split; [congruence|exact H]. }
        assert (forall j e x, nth_error (set_at eqs i ((h :: t) ++ [a])) j = Some e -> In x e -> (x = a /\ j = i) \/ exists e', nth_error eqs j = Some e' /\ In x e') as Hin.
        { intros j e x Hj Hx. apply Hset in Hj as [[-> ->]|[_ Hj]]; [|right; now exists e]. apply in_app_iff in Hx as [Hx|[<-|[]]]; [right; now exists (h :: t)|now left]. }
        split.
        -- intros j e Hj. apply Hset in Hj as [[-> ->]|[_ Hj]]; [|now apply (F1 j)]. exists h, (t ++ [a]). split; [reflexivity|]. intros x Hx. apply in_app_iff in Hx as [Hx|[<-|[]]]; [|exact Ha].
           destruct (F1 i _ Hi) as (h' & t' & [= <- <-] & K). now apply K.
        -- intros j e x Hj Hx. apply in_app_iff. destruct (Hin j e x Hj Hx) as [[-> _]|(e' & Hj' & Hx')]; [right; now left|]. left. eapply F2; eassumption.
        -- intros x Hx. apply in_app_iff in Hx as [Hx|[<-|[]]].
           ++ destruct (F3 x Hx) as (j & e & Hj & Hxe). destruct (Nat.eq_dec j i) as [->|N].
              ** rewrite Hi in Hj. injection Hj as <-. exists i, ((h :: t) ++ [a]). split; [|apply in_app_iff; now left]. rewrite ViewProofs.nth_error_set_at by exact Hli. now rewrite Nat.eqb_refl.
              ** exists j, e. split; [|exact Hxe]. rewrite ViewProofs.nth_error_set_at by exact Hli. destruct (Nat.eqb_spec i j); [congruence|exact Hj].
           ++ exists i, ((h :: t) ++ [a]). split; [|apply in_app_iff; right; now left]. rewrite ViewProofs.nth_error_set_at by exact Hli. now rewrite Nat.eqb_refl.
        -- intros j k e e' x y Hj Hk Hx Hy Exy. destruct (Hin j e x Hj Hx) as [[-> ->]|(e1 & Hj' & Hx')], (Hin k e' y Hk Hy) as [[-> ->]|(e2 & Hk' & Hy')].
           ++ reflexivity.
           ++ exfalso. exact (Hnew _ _ _ Hk' Hy' Exy).
           ++ exfalso. exact (Hnew _ _ _ Hj' Hx' (eq_sym Exy)).
           ++ eapply F4; eassumption.
        -- intros j k h' t' e x Hjk Hj Hk Hx. assert (exists t'', nth_error eqs j = Some (h' :: t'')) as (t'' & Hj').
           { apply Hset in Hj as [[-> [= -> _]]|[_ Hj]]; [now exists t|now exists t']. }
           destruct (Hin k e x Hk Hx) as [[-> ->]|(e2 & Hk' & Hy')]; [now apply (Hb j h' t'')|]. eapply F5; eassumption.
      * assert (forall j e, nth_error (eqs ++ [[a]]) j = Some e -> (j = length eqs /\ e = [a]) \/ ((j < length eqs)%nat /\ nth_error eqs j = Some e)) as Hset.
        { intros j e Hj. destruct (Nat.lt_ge_cases j (length eqs)) as [L|L]; [right; rewrite nth_error_app1 in Hj by exact L; now split|].
          rewrite nth_error_app2 in Hj by exact L. destruct (j - length eqs)%nat as [|m] eqn:Em; cbn in Hj; [injection Hj as <-; left; split; [lia|reflexivity]|destruct m; discriminate]. }
        split.
        -- intros j e Hj. apply Hset in Hj as [[-> ->]|[_ Hj]]; [|now apply (F1 j)]. exists a, []. split; [reflexivity|]. intros ? [].
        -- intros j e x Hj Hx. apply in_app_iff. apply Hset in Hj as [[-> ->]|[_ Hj]]; [destruct Hx as [<-|[]]; right; now left|]. left. eapply F2; eassumption.
        -- intros x Hx. apply in_app_iff in Hx as [Hx|[<-|[]]].
           ++ destruct (F3 x Hx) as (j & e & Hj & Hxe). exists j, e. split; [|exact Hxe]. rewrite nth_error_app1; [exact Hj|]. apply nth_error_Some. congruence.
           ++ exists (length eqs), [a]. split; [|now left]. rewrite nth_error_app2 by lia. now rewrite Nat.sub_diag.
        -- intros j k e e' x y Hj Hk Hx Hy Exy. apply Hset in Hj as [[-> ->]|[Lj Hj]]; apply Hset in Hk as [[-> ->]|[Lk Hk]].
           ++ reflexivity.
           ++ exfalso. destruct Hx as [<-|[]]. exact (Hnew _ _ _ Hk Hy Exy).
           ++ exfalso. destruct Hy as [<-|[]]. exact (Hnew _ _ _ Hj Hx (eq_sym Exy)).
           ++ eapply F4; eassumption.
        -- intros j k h' t' e x Hjk Hj Hk Hx. apply Hset in Hj as [[-> _]|[Lj Hj]]; apply Hset in Hk as [[-> ->]|[Lk Hk]]; try lia.
           ++ destruct Hx as [<-|[]]. now apply (Hb j h' t').
           ++ exact (F5 j k h' t' e x Hjk Hj Hk Hx).
Qed.
