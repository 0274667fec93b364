From Coq Require Import ZArith List Bool QArith_base QArith Qabs Permutation Sorted Lia Lqa.
From Verif Require Import SortModel SortSpec SortProofs.
Import ListNotations.
Open Scope Z_scope.

Local Notation dist x B := (Qabs (fst x - B)).
Local Notation slt := (fun x y : Q * Z => (fst x < fst y)%Q).

Lemma Qabs_cases x : (0 <= x /\ Qabs x == x)%Q \/ (x <= 0 /\ Qabs x == - x)%Q.
Proof.
  destruct (Qlt_le_dec x 0) as [H|H].
  - right. split; [lra|]. apply Qabs_neg. lra.
  - left. split; [lra|]. now apply Qabs_pos.
Qed.

Ltac dabs := repeat match goal with
  | H : context [Qabs ?t] |- _ =>
      let K := fresh "K" in let E := fresh "E" in
      destruct (Qabs_cases t) as [[K E]|[K E]]; rewrite E in *; clear E
  | |- context [Qabs ?t] =>
      let K := fresh "K" in let E := fresh "E" in
      destruct (Qabs_cases t) as [[K E]|[K E]]; rewrite E in *; clear E
  end.

(** p < x and x nearer to B than p: then x is nearer to every larger B' *)
Lemma nearer_after p x B B' : (p < x -> Qabs (x - B) < Qabs (p - B) -> B <= B' -> Qabs (x - B') <= Qabs (p - B'))%Q.
Proof. intros H1 H2 H3. dabs; lra. Qed.

Lemma farther_beyond c x y B : (c < x -> x <= y -> Qabs (c - B) <= Qabs (x - B) -> Qabs (c - B) <= Qabs (y - B))%Q.
Proof. intros H1 H2 H3. dabs; lra. Qed.

Lemma ss_app_inv {A} (P : A -> A -> Prop) l r : StronglySorted P (l ++ r) ->
  StronglySorted P l /\ StronglySorted P r /\ forall x y, In x l -> In y r -> P x y.
Proof.
  induction l as [|a l IH]; cbn; intros H.
  - repeat split; [constructor|exact H|intros x y []].
  - inversion H; subst. destruct (IH H2) as (I1 & I2 & I3). rewrite Forall_app in H3. destruct H3 as [F1 F2].
    repeat split; auto; [now constructor|]. intros x y [<-|Hx] Hy; [|auto].
    rewrite Forall_forall in F2. auto.
Qed.

Lemma advance_spec rest : forall P cur B, StronglySorted slt (P ++ cur :: rest) ->
  (forall p B', In p P -> B <= B' -> dist cur B' <= dist p B')%Q ->
  exists P' cur' rest', advance cur rest B = (cur', rest') /\ P ++ cur :: rest = P' ++ cur' :: rest' /\
    (forall p B', In p P' -> B <= B' -> dist cur' B' <= dist p B')%Q /\
    (forall c, In c (P' ++ cur' :: rest') -> dist cur' B <= dist c B)%Q.
Proof.
  induction rest as [|x r IH]; intros P cur B HS HP; cbn [advance].
  - exists P, cur, []. split; [reflexivity|]. split; [reflexivity|]. split; [exact HP|].
    intros c Hc. apply in_app_or in Hc as [Hc|[<-|[]]]; [apply HP; [exact Hc|lra]|lra].
  - destruct (Qle_bool (Qabs (fst cur - B)) (Qabs (fst x - B))) eqn:E; cbn [negb].
    + apply Qle_bool_iff in E. exists P, cur, (x :: r). split; [reflexivity|]. split; [reflexivity|].
      split; [exact HP|]. intros c Hc. apply in_app_or in Hc as [Hc|[<-|Hc]].
      * apply HP; [exact Hc|lra].
      * lra.
      * destruct (ss_app_inv _ _ _ HS) as (_ & HS2 & _). inversion HS2; subst.
        inversion H1; subst. rewrite Forall_forall in H2, H4.
        apply (farther_beyond (fst cur) (fst x) (fst c) B); [apply H2; now left| |exact E].
        destruct Hc as [<-|Hc]; [lra|]. specialize (H4 c Hc). lra.
    + apply Qle_bool_false in E.
      assert (HS' : StronglySorted slt ((P ++ [cur]) ++ x :: r)) by (rewrite <- app_assoc; exact HS).
      assert (Hlt : (fst cur < fst x)%Q).
      { destruct (ss_app_inv _ _ _ HS) as (_ & HS2 & _). inversion HS2; subst.
        rewrite Forall_forall in H2. apply H2. now left. }
      destruct (IH (P ++ [cur]) x B HS') as (P' & cur' & rest' & E1 & E2 & E3 & E4).
      { intros p B' Hp HB. pose proof (nearer_after (fst cur) (fst x) B B' Hlt E HB) as Hn.
        apply in_app_or in Hp as [Hp|[<-|[]]]; [|exact Hn]. specialize (HP p B' Hp HB). lra. }
      exists P', cur', rest'. split; [exact E1|]. split; [|auto]. rewrite <- E2, <- app_assoc. reflexivity.
Qed.

Lemma set_nth_len {A} (l : list A) k v : length (set_nth l k v) = length l.
Proof. revert k; induction l as [|x l IH]; intros [|k]; cbn; congruence. Qed.
Lemma set_nth_same {A} (l : list A) k v : (k < length l)%nat -> nth_error (set_nth l k v) k = Some v.
Proof. revert k; induction l as [|x l IH]; intros [|k]; cbn; intros H; try lia; [reflexivity|]. apply IH. lia. Qed.
Lemma set_nth_other {A} (l : list A) k k' v : k <> k' -> nth_error (set_nth l k v) k' = nth_error l k'.
Proof.
  revert k k'; induction l as [|x l IH]; intros [|k] [|k'] H; cbn; try reflexivity; try congruence.
  apply IH. congruence.
Qed.

Lemma match_loop_spec rtol sa b : StronglySorted slt sa ->
  forall P cur rest ind, sa = P ++ cur :: rest ->
  StronglySorted (fun x y : Q * Z => (fst x <= fst y)%Q) b ->
  (forall p x B', In p P -> In x b -> fst x <= B' -> dist cur B' <= dist p B')%Q ->
  NoDup (map snd b) -> (forall x, In x b -> 0 <= snd x < Z.of_nat (length ind)) ->
  let res := match_loop cur rest b rtol ind in
  length res = length ind /\
  (forall k, ~ In (Z.of_nat k) (map snd b) -> nth_error res k = nth_error ind k) /\
  (forall x, In x b ->
     (exists c, In c sa /\ nth_error res (Z.to_nat (snd x)) = Some (snd c) /\
        (dist c (fst x) <= rtol * Qabs (fst x))%Q /\ (forall d, In d sa -> dist c (fst x) <= dist d (fst x))%Q)
     \/ (nth_error res (Z.to_nat (snd x)) = nth_error ind (Z.to_nat (snd x)) /\
         forall d, In d sa -> (rtol * Qabs (fst x) < dist d (fst x))%Q)).
Proof.
  intros HS. induction b as [|[B bi] b IH]; intros P cur rest ind Hsa Hb HP Hnd Hin; cbn [match_loop].
  - cbn. repeat split; auto. intros x [].
  - destruct (advance_spec rest P cur B) as (P' & cur' & rest' & E1 & E2 & E3 & E4).
    { now rewrite <- Hsa. }
    { intros p B' Hp HB. apply (HP p (B, bi)); [exact Hp|now left|exact HB]. }
    rewrite E1. cbv beta iota zeta. rewrite <- E2, <- Hsa in E4.
    set (ind' := if Qle_bool (Qabs (fst cur' - B)) (rtol * Qabs B) then set_nth ind (Z.to_nat bi) (snd cur') else ind).
    assert (L : length ind' = length ind) by (unfold ind'; destruct (Qle_bool _ _); [apply set_nth_len|reflexivity]).
    inversion Hb as [|? ? Hb' Hf]; subst. inversion Hnd as [|? ? Hni Hnd']; subst. cbn [map snd] in *.
    destruct (IH P' cur' rest' ind') as (I1 & I2 & I3); auto.
    { intros p x B' Hp Hx HB. apply E3; [exact Hp|]. rewrite Forall_forall in Hf. specialize (Hf x Hx). cbn in Hf. lra. }
    { intros x Hx. rewrite L. apply Hin. now right. }
    pose proof (Hin (B, bi) (or_introl eq_refl)) as Hbi. cbn [snd] in Hbi.
    assert (Hkeep : forall k, Z.of_nat k <> bi -> nth_error ind' k = nth_error ind k).
    { intros k Hk. unfold ind'. destruct (Qle_bool _ _); [|reflexivity]. apply set_nth_other. lia. }
    split; [congruence|]. split.
    + intros k Hk. cbn [map snd In] in Hk. rewrite I2 by tauto. apply Hkeep. intros K. apply Hk. left. congruence.
    + intros x [<-|Hx]; cbn [fst snd].
      * assert (Er : nth_error (match_loop cur' rest' b rtol ind') (Z.to_nat bi) = nth_error ind' (Z.to_nat bi)).
        { apply I2. rewrite Z2Nat.id by lia. exact Hni. }
        rewrite Er. unfold ind'. destruct (Qle_bool (Qabs (fst cur' - B)) (rtol * Qabs B)) eqn:E.
        -- apply Qle_bool_iff in E. left. exists cur'. split; [rewrite E2; apply in_or_app; right; now left|].
           split; [apply set_nth_same; lia|]. split; [exact E|exact E4].
        -- apply Qle_bool_false in E. right. split; [reflexivity|].
           intros d Hd. specialize (E4 d Hd). lra.
      * destruct (I3 x Hx) as [H|[H1 H2]]; [left; exact H|right].
        split; [|exact H2]. rewrite H1. apply Hkeep. intros K. apply Hni.
        assert (0 <= snd x) by (apply (Hin x); now right).
        rewrite <- K, Z2Nat.id by lia. now apply in_map.
Qed.

Lemma with_positions_elem a x i : In (x, i) (with_positions a) <-> elem a i x.
Proof. rewrite <- index_from_positions, index_from_elem. now replace (i - 0) with i by lia. Qed.

Lemma with_positions_NoDup a : NoDup (map snd (with_positions a)).
Proof. rewrite <- index_from_positions. apply index_from_NoDup. Qed.

Lemma NoDup_map_elem {A B} (f : A -> B) l i j x y : NoDup (map f l) -> elem l i x -> elem l j y -> i <> j -> f x <> f y.
Proof.
  intros H Hi Hj Hn K. pose proof (elem_len _ _ _ Hi) as L.
  rewrite NoDup_nth_error in H.
  assert (Z.to_nat i = Z.to_nat j); [|destruct Hi, Hj; lia].
  apply H; [rewrite map_length; lia|]. destruct Hi as [_ Hi], Hj as [_ Hj].
  rewrite !nth_error_map, Hi, Hj. cbn. congruence.
Qed.

Lemma sort_strict a s : sort a = Some s -> distinct a -> StronglySorted slt s /\ Permutation s (with_positions a).
Proof.
  intros E Hd. destruct (sort_spec a) as (s' & E' & P & N & _). rewrite E in E'. injection E' as <-.
  split; [|exact P]. apply elem_ss. intros i j x y Hi Hj Hl.
  pose proof (N i j x y Hi Hj Hl) as Hle.
  assert (Hne : snd x <> snd y).
  { eapply NoDup_map_elem; [|exact Hi|exact Hj|lia].
    eapply Permutation_NoDup; [apply Permutation_map, Permutation_sym, P|apply with_positions_NoDup]. }
  assert (Hx : elem a (snd x) (fst x)).
  { apply with_positions_elem. rewrite <- surjective_pairing. apply (Permutation_in _ P). apply elem_in. eauto. }
  assert (Hy : elem a (snd y) (fst y)).
  { apply with_positions_elem. rewrite <- surjective_pairing. apply (Permutation_in _ P). apply elem_in. eauto. }
  specialize (Hd _ _ _ _ Hx Hy Hne). lra.
Qed.

Lemma Forall2_nth {A B} (P : A -> B -> Prop) l l' : length l = length l' ->
  (forall k x y, nth_error l k = Some x -> nth_error l' k = Some y -> P x y) -> Forall2 P l l'.
Proof.
  revert l'; induction l as [|x l IH]; intros [|y l']; cbn; intros H K; try discriminate; constructor.
  - exact (K 0%nat x y eq_refl eq_refl).
  - apply IH; [congruence|]. intros k a b Ha Hb. exact (K (S k) a b Ha Hb).
Qed.

Lemma map_to_c_spec a b rtol : distinct a ->
  exists ind, map_to_c a b rtol = Some ind /\
    Forall2 (fun B i => (0 <= i /\ nearest_within a rtol B i) \/ (i = -1 /\ none_within a rtol B)) b ind.
Proof.
  intros Hd. unfold map_to_c.
  destruct (sort_spec a) as (sa & Ea & Pa & _). destruct (sort_spec b) as (sb & Eb & Pb & Nb & _).
  rewrite Ea, Eb. destruct (sort_strict a sa Ea Hd) as [SS _].
  set (ind0 := map (fun _ => -1) b).
  assert (L0 : length ind0 = length b) by (unfold ind0; apply map_length).
  assert (N0 : forall k, (k < length b)%nat -> nth_error ind0 k = Some (-1)).
  { intros k Hk. unfold ind0. rewrite nth_error_map. destruct (nth_error b k) eqn:E; [reflexivity|].
    apply nth_error_None in E. lia. }
  destruct sa as [|cur rest].
  - exists ind0. split; [reflexivity|]. apply Forall2_nth; [congruence|].
    intros k B i HB Hi. right. assert ((k < length b)%nat) by (apply nth_error_Some; congruence).
    rewrite N0 in Hi by assumption. split; [congruence|]. intros j y Hy. exfalso.
    apply with_positions_elem in Hy. apply (Permutation_in _ (Permutation_sym Pa)) in Hy. exact Hy.
  - destruct (match_loop_spec rtol (cur :: rest) sb SS [] cur rest ind0 eq_refl) as (R1 & R2 & R3).
    + apply elem_ss. exact Nb.
    + intros p x B' [].
    + eapply Permutation_NoDup; [apply Permutation_map, Permutation_sym, Pb|apply with_positions_NoDup].
    + intros [x i] Hx. apply (Permutation_in _ Pb) in Hx. apply with_positions_elem in Hx.
      apply elem_len in Hx. cbn. lia.
    + set (res := match_loop cur rest sb rtol ind0) in *. exists res. split; [reflexivity|].
      apply Forall2_nth; [congruence|]. intros k B i HB Hi.
      assert (Hk : (k < length b)%nat) by (apply nth_error_Some; congruence).
      assert (Hin : In (B, Z.of_nat k) sb).
      { apply (Permutation_in _ (Permutation_sym Pb)). apply with_positions_elem. split; [lia|]. now rewrite Nat2Z.id. }
      assert (Hall : forall j y, elem a j y -> In (y, j) (cur :: rest)).
      { intros j y Hy. apply (Permutation_in _ (Permutation_sym Pa)). now apply with_positions_elem. }
      destruct (R3 _ Hin) as [(c & Hc & Hn & Hw & Hmin)|[Hn Hnone]]; cbn [fst snd] in *; rewrite Nat2Z.id in Hn.
      * left. assert (i = snd c) as -> by congruence.
        assert (Hc' : elem a (snd c) (fst c)).
        { apply with_positions_elem. rewrite <- surjective_pairing. apply (Permutation_in _ Pa), Hc. }
        pose proof (elem_len _ _ _ Hc'). split; [lia|]. exists (fst c). split; [exact Hc'|]. split; [exact Hw|].
        intros j y Hy. apply (Hmin (y, j)). auto.
      * right. rewrite N0 in Hn by exact Hk. split; [congruence|].
        intros j y Hy. apply (Hnone (y, j)). auto.
Qed.

Lemma map_to_spec a b rtol : distinct a -> exists ind, map_to a b rtol = Some ind /\ matches a rtol b ind.
Proof.
  intros Hd. unfold map_to. destruct (map_to_c_spec a b rtol Hd) as (ind & -> & F).
  eexists; split; [reflexivity|]. induction F as [|B i b ind Hi F IH]; cbn [filter]; [constructor|].
  destruct Hi as [[H1 H2]|[-> H2]].
  - destruct (Z.geb_spec i 0); [|lia]. now constructor.
  - cbn. now constructor.
Qed.
