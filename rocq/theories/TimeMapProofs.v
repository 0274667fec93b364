From Coq Require Import ZArith List Bool Lia ZifyBool Permutation.
From Verif Require Import Loop TimeSearchModel TimeSearchSpec TimeSearchProofs.
Import ListNotations.
Open Scope Z_scope.

Lemma sorted_le n t i j ri rj : table n t -> sorted t -> at_ t i ri -> at_ t j rj -> i <= j ->
  lex_lt ri rj \/ ri = rj.
Proof.
  intros Ht Hs Hi Hj Hl. destruct (Z.eq_dec i j) as [->|Hne].
  - right. eapply at_fun; eassumption.
  - apply not_lt_cases.
    + rewrite (table_at _ _ _ _ Ht Hi), (table_at _ _ _ _ Ht Hj). reflexivity.
    + eapply Hs; [exact Hi|exact Hj|lia].
Qed.

Lemma increasing_distinct t i j r : increasing t -> at_ t i r -> at_ t j r -> i = j.
Proof.
  intros H Hi Hj. destruct (Z.lt_trichotomy i j) as [K|[K|K]]; auto; exfalso; apply (lex_irrefl r).
  - eapply H; [exact Hi|exact Hj|exact K].
  - eapply H; [exact Hj|exact Hi|exact K].
Qed.

Section Common.
  Context (n : nat) (a b : list (list Z)) (Ta : table n a) (Tb : table n b) (Sa : sorted a) (Sb : sorted b).

  Definition cmI (st : Z * Z * list (Z * Z)) : Prop :=
    let '(ai, bi, m) := st in
    0 <= ai <= zlen a /\ 0 <= bi <= zlen b /\
    (forall i j, In (i, j) m -> exists r, at_ a i r /\ at_ b j r) /\
    (forall i r, at_ a i r -> i < ai -> In r b -> In i (map fst m)) /\
    (forall j r, at_ b j r -> j < bi -> In r a -> In j (map snd m)) /\
    (forall i j ri rj, at_ a i ri -> at_ b j rj -> i < ai -> bi <= j ->
       lex_lt ri rj \/ (at_ b bi ri /\ at_ a ai ri)) /\
    (forall i j ri rj, at_ a i ri -> at_ b j rj -> ai <= i -> j < bi ->
       lex_lt rj ri \/ (at_ b bi rj /\ at_ a ai rj /\ forall k rk, at_ a k rk -> ai < k -> lex_lt rj rk)) /\
    zlen m <= ai + bi /\
    (increasing a -> zlen m <= bi) /\ (increasing b -> zlen m <= ai).

  Definition cmQ (o : option (list (Z * Z))) : Prop := exists m, o = Some m /\
    (forall i j, In (i, j) m -> exists r, at_ a i r /\ at_ b j r) /\
    (forall i r, at_ a i r -> In r b -> In i (map fst m)) /\
    (forall j r, at_ b j r -> In r a -> In j (map snd m)) /\
    zlen m <= zlen a + zlen b /\
    (increasing a -> zlen m <= zlen b) /\ (increasing b -> zlen m <= zlen a).

  Definition cmf (st : Z * Z * list (Z * Z)) : Z :=
    let '(ai, bi, m) := st in zlen a + zlen b - ai - bi.

  Lemma cm_step_ok st : cmI st ->
    match cm_step a b st with
    | inl s' => cmI s' /\ 0 <= cmf s' < cmf st
    | inr r => cmQ r
    end.
  Proof.
    destruct st as [[ai bi] m]. intros (Ha & Hb & Hp & Ca & Cb & Ia & Ib & L0 & L1 & L2).
    unfold cm_step.
    assert (Lz : forall x y : Z, zlen ((x, y) :: m) = zlen m + 1) by (intros; unfold zlen; cbn [length]; lia).
    destruct (Z.ltb_spec ai (zlen a)) as [Hai|Hai]; cbn [andb].
    2: { exists m. split; [reflexivity|]. split; [exact Hp|].
      assert (Hea : ai = zlen a) by lia. subst ai.
      split; [intros i r Hi Hin; apply (Ca i r Hi); auto; apply at_lt in Hi; lia|].
      split; [|split; [lia|split; intros K; [specialize (L1 K)|specialize (L2 K)]; lia]].
      intros j r Hj Hin. destruct (Z_lt_dec j bi) as [K|K]; [eapply Cb; eassumption|].
      apply at_in in Hin as (i & Hi). pose proof (at_lt _ _ _ Hi).
      destruct (Ia i j r r Hi Hj ltac:(lia) ltac:(lia)) as [X|[_ X]]; [destruct (lex_irrefl _ X)|].
      apply at_lt in X; lia. }
    destruct (Z.ltb_spec bi (zlen b)) as [Hbi|Hbi].
    2: { exists m. split; [reflexivity|]. split; [exact Hp|].
      assert (Hea : bi = zlen b) by lia. subst bi.
      split; [|split; [intros j r Hj Hin; apply (Cb j r Hj); auto; apply at_lt in Hj; lia|
          split; [lia|split; intros K; [specialize (L1 K)|specialize (L2 K)]; lia]]].
      intros i r Hi Hin. destruct (Z_lt_dec i ai) as [K|K]; [eapply Ca; eassumption|].
      apply at_in in Hin as (j & Hj). pose proof (at_lt _ _ _ Hj).
      destruct (Ib i j r r Hi Hj ltac:(lia) ltac:(lia)) as [X|[X _]]; [destruct (lex_irrefl _ X)|].
      apply at_lt in X; lia. }
    destruct (at_exists a ai ltac:(lia)) as (ra & Hra). destruct (at_exists b bi ltac:(lia)) as (rb & Hrb).
    rewrite (proj2 (znth_at _ _ _) Hra), (proj2 (znth_at _ _ _) Hrb).
    pose proof (table_at _ _ _ _ Ta Hra) as La. pose proof (table_at _ _ _ _ Tb Hrb) as Lb.
    destruct (cmpval_spec ra rb ltac:(congruence)) as (C0 & C1 & C2). cbv zeta.
    destruct (Z.eqb_spec (cmpval ra rb) 0) as [E|E].
    - apply C0 in E. subst rb.
      assert (Hp' : forall i j, In (i, j) ((ai, bi) :: m) -> exists r, at_ a i r /\ at_ b j r).
      { intros i j [X|X]; [injection X as <- <-; eauto|auto]. }
      assert (Ca' : forall i r, at_ a i r -> i < ai + 1 -> In r b -> In i (map fst ((ai, bi) :: m))).
      { intros i r Hi Hl Hin. cbn. destruct (Z.eq_dec ai i); [now left|right]. eapply Ca; [exact Hi|lia|exact Hin]. }
      assert (Cb' : forall j r, at_ b j r -> j < bi + 1 -> In r a -> In j (map snd ((ai, bi) :: m))).
      { intros i r Hi Hl Hin. cbn. destruct (Z.eq_dec bi i); [now left|right]. eapply Cb; [exact Hi|lia|exact Hin]. }
      assert (NB : forall j rj, at_ b j rj -> j < bi + 1 -> lex_lt rj ra \/ rj = ra).
      { intros j rj Hj Hl. eapply sorted_le; [exact Tb|exact Sb|exact Hj|exact Hrb|lia]. }
      assert (NA : forall i ri, at_ a i ri -> i < ai + 1 -> lex_lt ri ra \/ ri = ra).
      { intros j rj Hj Hl. eapply sorted_le; [exact Ta|exact Sa|exact Hj|exact Hra|lia]. }
      (* is the next row of a equal? *)
      set (rep_a := if ai <? zlen a - 1 then match znth a (ai + 1) with Some ra' => Some (cmpval ra ra' =? 0) | None => None end else Some false).
      assert (HA : exists v, rep_a = Some v /\
         (if v then at_ a (ai + 1) ra else forall k rk, at_ a k rk -> ai < k -> lex_lt ra rk)).
      { unfold rep_a. destruct (Z.ltb_spec ai (zlen a - 1)) as [H1|H1].
        - destruct (at_exists a (ai + 1) ltac:(lia)) as (r' & Hr').
          rewrite (proj2 (znth_at _ _ _) Hr'). eexists; split; [reflexivity|].
          destruct (cmpval_spec ra r') as (D0 & _ & _); [rewrite (table_at _ _ _ _ Ta Hr'); exact La|].
          destruct (Z.eqb_spec (cmpval ra r') 0) as [X|X].
          + apply D0 in X. subst r'. exact Hr'.
          + intros k rk Hk Hl.
            destruct (sorted_le n a (ai + 1) k r' rk Ta Sa Hr' Hk ltac:(lia)) as [Y|Y];
            destruct (sorted_le n a ai (ai + 1) ra r' Ta Sa Hra Hr' ltac:(lia)) as [W|W]; try (exfalso; tauto).
            * eapply lex_trans; eassumption.
            * subst; exact W.
        - eexists; split; [reflexivity|]. cbv beta iota. intros k rk Hk Hl. apply at_lt in Hk. lia. }
      set (rep_b := if bi <? zlen b - 1 then match znth b (bi + 1) with Some ra' => Some (cmpval ra ra' =? 0) | None => None end else Some false).
      assert (HB : exists v, rep_b = Some v /\
         (if v then at_ b (bi + 1) ra else forall k rk, at_ b k rk -> bi < k -> lex_lt ra rk)).
      { unfold rep_b. destruct (Z.ltb_spec bi (zlen b - 1)) as [H1|H1].
        - destruct (at_exists b (bi + 1) ltac:(lia)) as (r' & Hr').
          rewrite (proj2 (znth_at _ _ _) Hr'). eexists; split; [reflexivity|].
          destruct (cmpval_spec ra r') as (D0 & _ & _); [rewrite (table_at _ _ _ _ Tb Hr'); exact La|].
          destruct (Z.eqb_spec (cmpval ra r') 0) as [X|X].
          + apply D0 in X. subst r'. exact Hr'.
          + intros k rk Hk Hl.
            destruct (sorted_le n b (bi + 1) k r' rk Tb Sb Hr' Hk ltac:(lia)) as [Y|Y];
            destruct (sorted_le n b bi (bi + 1) ra r' Tb Sb Hrb Hr' ltac:(lia)) as [W|W]; try (exfalso; tauto).
            * eapply lex_trans; eassumption.
            * subst; exact W.
        - eexists; split; [reflexivity|]. cbv beta iota. intros k rk Hk Hl. apply at_lt in Hk. lia. }
      destruct HA as (va & -> & HA). destruct HB as (vb & -> & HB).
      destruct va.
      + (* a repeated *)
        pose proof (at_lt _ _ _ HA).
        split; [|unfold cmf; lia]. unfold cmI.
        split; [lia|]. split; [lia|]. split; [exact Hp'|]. split; [exact Ca'|].
        split; [intros j r Hj Hl; apply Cb'; [exact Hj|lia]|].
        split; [|split; [|rewrite Lz; split; [lia|split; intros K; [|specialize (L2 K); lia]]]].
        * intros i j ri rj Hi Hj Hl Hl2. destruct (NA i ri Hi ltac:(lia)) as [X| ->].
          -- left. destruct (sorted_le n b bi j ra rj Tb Sb Hrb Hj ltac:(lia)) as [Y|<-]; [|exact X].
             eapply lex_trans; eassumption.
          -- right. auto.
        * intros i j ri rj Hi Hj Hl Hl2. destruct (Ib ai j ra rj Hra Hj ltac:(lia) ltac:(lia)) as [X|(X1 & X2 & X3)].
          -- left. destruct (sorted_le n a ai i ra ri Ta Sa Hra Hi ltac:(lia)) as [Y|<-]; [|exact X].
             eapply lex_trans; eassumption.
          -- exfalso. pose proof (at_fun _ _ _ _ X2 Hra). subst rj. apply (lex_irrefl ra).
             eapply X3; [exact HA|lia].
        * exfalso. pose proof (increasing_distinct _ _ _ _ K Hra HA). lia.
      + destruct vb.
        * pose proof (at_lt _ _ _ HB).
          split; [|unfold cmf; lia]. unfold cmI.
          split; [lia|]. split; [lia|]. split; [exact Hp'|].
          split; [intros j r Hj Hl; apply Ca'; [exact Hj|lia]|]. split; [exact Cb'|].
          split; [|split; [|rewrite Lz; split; [lia|split; intros K; [specialize (L1 K); lia|]]]].
          -- intros i j ri rj Hi Hj Hl Hl2. destruct (Ia i bi ri ra Hi Hrb ltac:(lia) ltac:(lia)) as [X|(X1 & X2)].
             ++ left. destruct (sorted_le n b bi j ra rj Tb Sb Hrb Hj ltac:(lia)) as [Y|<-]; [|exact X].
                eapply lex_trans; eassumption.
             ++ right. pose proof (at_fun _ _ _ _ X2 Hra). subst ri. auto.
          -- intros i j ri rj Hi Hj Hl Hl2. destruct (NB j rj Hj ltac:(lia)) as [X| ->].
             ++ left. destruct (sorted_le n a ai i ra ri Ta Sa Hra Hi ltac:(lia)) as [Y|<-]; [|exact X].
                eapply lex_trans; eassumption.
             ++ right. auto.
          -- exfalso. pose proof (increasing_distinct _ _ _ _ K Hrb HB). lia.
        * split; [|unfold cmf; lia]. unfold cmI.
          split; [lia|]. split; [lia|]. split; [exact Hp'|]. split; [exact Ca'|]. split; [exact Cb'|].
          split; [|split; [|rewrite Lz; split; [lia|split; intros K; [specialize (L1 K)|specialize (L2 K)]; lia]]].
          -- intros i j ri rj Hi Hj Hl Hl2. left. pose proof (HB j rj Hj ltac:(lia)).
             destruct (NA i ri Hi ltac:(lia)) as [X| ->]; [eapply lex_trans; eassumption|assumption].
          -- intros i j ri rj Hi Hj Hl Hl2. left. pose proof (HA i ri Hi ltac:(lia)).
             destruct (NB j rj Hj ltac:(lia)) as [X| ->]; [eapply lex_trans; eassumption|assumption].
    - destruct (Z.ltb_spec (cmpval ra rb) 0) as [H|H].
      + apply C1 in H. split; [|unfold cmf; lia]. unfold cmI.
        split; [lia|]. split; [lia|]. split; [exact Hp|].
        split.
        { intros i r Hi Hl Hin. destruct (Z.eq_dec i ai) as [->|]; [|eapply Ca; [exact Hi|lia|exact Hin]].
          pose proof (at_fun _ _ _ _ Hi Hra). subst r. exfalso.
          apply at_in in Hin as (j & Hj). destruct (Z_lt_dec j bi).
          - destruct (Ib ai j ra ra Hra Hj ltac:(lia) ltac:(lia)) as [X|(X & _)]; [exact (lex_irrefl _ X)|].
            pose proof (at_fun _ _ _ _ X Hrb). subst. exact (lex_irrefl _ H).
          - destruct (sorted_le n b bi j rb ra Tb Sb Hrb Hj ltac:(lia)) as [X|X].
            + exact (lex_asym _ _ H X).
            + subst. exact (lex_irrefl _ H). }
        split; [exact Cb|].
        split; [|split; [|split; [lia|split; intros K; [specialize (L1 K)|specialize (L2 K)]; lia]]].
        * intros i j ri rj Hi Hj Hl Hl2. left.
          assert (P : lex_lt ri rb).
          { destruct (sorted_le n a i ai ri ra Ta Sa Hi Hra ltac:(lia)) as [X| ->]; [|exact H].
            eapply lex_trans; eassumption. }
          destruct (sorted_le n b bi j rb rj Tb Sb Hrb Hj ltac:(lia)) as [Y|<-]; [|exact P].
          eapply lex_trans; eassumption.
        * intros i j ri rj Hi Hj Hl Hl2. left.
          destruct (Ib ai j ra rj Hra Hj ltac:(lia) ltac:(lia)) as [X|(X1 & X2 & X3)].
          -- destruct (sorted_le n a ai i ra ri Ta Sa Hra Hi ltac:(lia)) as [Y|<-]; [|exact X].
             eapply lex_trans; eassumption.
          -- pose proof (at_fun _ _ _ _ X1 Hrb). pose proof (at_fun _ _ _ _ X2 Hra). subst.
             destruct (lex_irrefl _ H).
      + assert (Hc : cmpval ra rb > 0) by lia. apply C2 in Hc. split; [|unfold cmf; lia]. unfold cmI.
        split; [lia|]. split; [lia|]. split; [exact Hp|]. split; [exact Ca|].
        split.
        { intros j r Hj Hl Hin. destruct (Z.eq_dec j bi) as [->|]; [|eapply Cb; [exact Hj|lia|exact Hin]].
          pose proof (at_fun _ _ _ _ Hj Hrb). subst r. exfalso.
          apply at_in in Hin as (i & Hi). destruct (Z_lt_dec i ai).
          - destruct (Ia i bi rb rb Hi Hrb ltac:(lia) ltac:(lia)) as [X|(_ & X)]; [exact (lex_irrefl _ X)|].
            pose proof (at_fun _ _ _ _ X Hra). subst. exact (lex_irrefl _ Hc).
          - destruct (sorted_le n a ai i ra rb Ta Sa Hra Hi ltac:(lia)) as [X|X].
            + exact (lex_asym _ _ Hc X).
            + subst. exact (lex_irrefl _ Hc). }
        split; [|split; [|split; [lia|split; intros K; [specialize (L1 K)|specialize (L2 K)]; lia]]].
        * intros i j ri rj Hi Hj Hl Hl2. left.
          destruct (Ia i bi ri rb Hi Hrb ltac:(lia) ltac:(lia)) as [X|(X1 & X2)].
          -- destruct (sorted_le n b bi j rb rj Tb Sb Hrb Hj ltac:(lia)) as [Y|<-]; [|exact X].
             eapply lex_trans; eassumption.
          -- pose proof (at_fun _ _ _ _ X1 Hrb). pose proof (at_fun _ _ _ _ X2 Hra). subst.
             destruct (lex_irrefl _ Hc).
        * intros i j ri rj Hi Hj Hl Hl2. left.
          assert (P : lex_lt rj ra).
          { destruct (sorted_le n b j bi rj rb Tb Sb Hj Hrb ltac:(lia)) as [X| ->]; [|exact Hc].
            eapply lex_trans; eassumption. }
          destruct (sorted_le n a ai i ra ri Ta Sa Hra Hi ltac:(lia)) as [Y|<-]; [|exact P].
          eapply lex_trans; eassumption.
  Qed.

  Lemma common_map_spec : exists m, common_map a b = Some m /\
    (forall i j, In (i, j) m -> exists r, at_ a i r /\ at_ b j r) /\
    (forall i r, at_ a i r -> In r b -> exists j, In (i, j) m) /\
    (forall j r, at_ b j r -> In r a -> exists i, In (i, j) m) /\
    zlen m <= zlen a + zlen b /\
    (increasing a -> zlen m <= zlen b) /\ (increasing b -> zlen m <= zlen a).
  Proof.
    unfold common_map.
    destruct (loop_inv (cm_step a b) cmI cmf cmQ cm_step_ok (fuel_for (zlen a + zlen b)) (0, 0, []))
      as (r & E & m & -> & H1 & H2 & H3 & H4 & H5 & H6).
    - assert (0 <= zlen a /\ 0 <= zlen b) by (unfold zlen; lia). unfold cmI.
      split; [lia|]. split; [lia|]. split; [intros i j []|].
      split; [intros i r Hi; apply at_lt in Hi; lia|].
      split; [intros i r Hi; apply at_lt in Hi; lia|].
      split; [intros i j ri rj Hi; apply at_lt in Hi; lia|].
      split; [intros i j ri rj _ Hi; apply at_lt in Hi; lia|].
      repeat split; cbn; intros; lia.
    - unfold cmf. pose proof (fuel_for_ok (zlen a + zlen b) ltac:(unfold zlen; lia)). unfold zlen in *; lia.
    - rewrite E. exists (rev m).
      assert (L : zlen (rev m) = zlen m) by (unfold zlen; now rewrite rev_length). rewrite L.
      split; [reflexivity|].
      split; [intros i j Hin; apply in_rev in Hin; auto|].
      split; [|split; [|auto]].
      + intros i x Hi Hin. specialize (H2 i x Hi Hin). apply in_map_iff in H2 as ([i' j] & <- & H2).
        exists j. apply -> in_rev. exact H2.
      + intros i x Hi Hin. specialize (H3 i x Hi Hin). apply in_map_iff in H3 as ([i' j] & <- & H3).
        exists i'. apply -> in_rev. exact H3.
  Qed.
End Common.

(** *** fancy indexing *)
Lemma take_spec {A} (l : list A) ind : Forall (fun i => 0 <= i < zlen l) ind ->
  exists r, take l ind = Some r /\ length r = length ind /\
    forall k i, at_ ind k i -> exists x, at_ r k x /\ at_ l i x.
Proof.
  induction 1 as [|i ind Hi Hind IH]; cbn [take fold_right].
  - exists []. repeat split. intros k i Hk. apply at_lt in Hk. unfold zlen in Hk; cbn in Hk; lia.
  - destruct IH as (r & E & L & IH). fold (take l ind). rewrite E.
    destruct (at_exists l i Hi) as (x & Hx). rewrite (proj2 (znth_at _ _ _) Hx).
    exists (x :: r). split; [reflexivity|]. split; [cbn; congruence|].
    intros k i' [Hk1 Hk2]. destruct (Z.to_nat k) as [|k'] eqn:Ek; cbn in Hk2.
    + injection Hk2 as <-. exists x. split; [|exact Hx]. split; [lia|]. now rewrite Ek.
    + destruct (IH (Z.of_nat k') i') as (y & [Hy1 Hy2] & Hy'); [split; [lia|]; now rewrite Nat2Z.id|].
      exists y. split; [|exact Hy']. split; [lia|]. rewrite Ek. cbn. now rewrite Nat2Z.id in Hy2.
Qed.

Lemma at_len {A B} (l : list A) (l' : list B) k x : length l = length l' -> at_ l k x -> exists y, at_ l' k y.
Proof.
  intros H Hk. apply at_lt in Hk. apply at_exists. unfold zlen in *. lia.
Qed.

Lemma take_inv {A} (l : list A) ind r k x : take l ind = Some r -> at_ r k x ->
  exists i, at_ ind k i /\ at_ l i x.
Proof.
  revert r k. induction ind as [|i ind IH]; cbn [take fold_right]; intros r k H Hk.
  - injection H as <-. apply at_lt in Hk. unfold zlen in Hk; cbn in Hk; lia.
  - fold (take l ind) in H. destruct (znth l i) as [y|] eqn:Ey; [|discriminate].
    destruct (take l ind) as [r'|]; [|discriminate]. injection H as <-.
    destruct Hk as [Hk1 Hk2]. destruct (Z.to_nat k) as [|k'] eqn:Ek; cbn in Hk2.
    + injection Hk2 as <-. exists i. split; [split; [lia|now rewrite Ek]|now apply znth_at].
    + destruct (IH r' (Z.of_nat k') eq_refl) as (i' & [Hi1 Hi2] & Hi'); [split; [lia|]; now rewrite Nat2Z.id|].
      exists i'. split; [|exact Hi']. split; [lia|]. rewrite Ek. cbn. now rewrite Nat2Z.id in Hi2.
Qed.

Lemma perm_range n p : index_permutation n p -> Forall (fun i => 0 <= i < Z.of_nat n) p.
Proof.
  intros H. apply Forall_forall. intros i Hi. apply (Permutation_in _ H) in Hi.
  apply in_map_iff in Hi as (k & <- & Hk). apply in_seq in Hk. lia.
Qed.

Lemma perm_len n p : index_permutation n p -> length p = n.
Proof. intros H. apply Permutation_length in H. now rewrite map_length, seq_length in H. Qed.

Lemma perm_all n p i : index_permutation n p -> 0 <= i < Z.of_nat n -> In i p.
Proof.
  intros H Hi. apply (Permutation_in _ (Permutation_sym H)). apply in_map_iff.
  exists (Z.to_nat i). split; [lia|]. apply in_seq. lia.
Qed.

Lemma take_table n l p r : table n l -> take l p = Some r -> table n r.
Proof.
  intros H E. apply Forall_forall. intros x Hx. apply at_in in Hx as (k & Hk).
  destruct (take_inv _ _ _ _ _ E Hk) as (i & _ & Hi). eapply table_at; eassumption.
Qed.

Lemma take_In {A} (l r : list A) p : index_permutation (length l) p -> take l p = Some r ->
  forall x, In x r <-> In x l.
Proof.
  intros Hp E x. split.
  - intros H. apply at_in in H as (k & Hk). destruct (take_inv _ _ _ _ _ E Hk) as (i & _ & Hi).
    apply at_in; eauto.
  - intros H. apply at_in in H as (i & Hi).
    assert (Hin : In i p) by (eapply perm_all; [exact Hp|apply at_lt in Hi; exact Hi]).
    apply at_in in Hin as (k & Hk).
    destruct (take_spec l p (perm_range _ _ Hp)) as (r' & E' & _ & H'). rewrite E in E'. injection E' as <-.
    destruct (H' k i Hk) as (y & Hy & Hy'). pose proof (at_fun _ _ _ _ Hi Hy'). subst y.
    apply at_in; eauto.
Qed.

(** *** Time.map_to *)
Lemma time_map_to_spec n isrt mine theirs s : (0 < n)%nat -> table n mine -> table n theirs ->
  index_permutation (length mine) isrt -> take mine isrt = Some s -> sorted s ->
  exists ind, time_map_to isrt mine theirs = Some ind /\ mapped mine theirs ind.
Proof.
  intros Hn Tm Tt Hp Es Hs. unfold time_map_to. rewrite Es.
  pose proof (take_table _ _ _ _ Tm Es) as Ts. pose proof (take_In _ _ _ Hp Es) as Hin.
  destruct (take_spec mine isrt (perm_range _ _ Hp)) as (s' & Es' & Ls & Ht). rewrite Es in Es'. injection Es' as <-.
  clear Hp. induction theirs as [|o theirs IH].
  - exists []. split; [reflexivity|constructor].
  - inversion Tt; subst. destruct (IH H2) as (ind & E & M). cbn [get_indices].
    destruct (get_index_spec (length o) s o Hn Ts eq_refl Hs) as (i & E1 & Hi). rewrite E1.
    destruct (get_indices s theirs) as [l|]; [|discriminate]. cbn [filter].
    destruct Hi as [Hi|[-> Hi]].
    + pose proof (at_lt _ _ _ Hi). destruct (Z.geb_spec i 0); [|lia].
      cbn [take fold_right]. fold (take isrt (filter (fun i => i >=? 0) l)). rewrite E.
      destruct (take_inv _ _ _ _ _ Es Hi) as (k & Hk & Hk').
      rewrite (proj2 (znth_at _ _ _) Hk). exists (k :: ind). split; [reflexivity|]. now constructor.
    + cbn [Z.geb Z.compare]. exists ind. split; [exact E|]. apply mp_miss; [|exact M].
      rewrite <- Hin. exact Hi.
Qed.

(** *** Time.common_map *)
Lemma NoDup_at {A} (l : list A) i j x : NoDup l -> at_ l i x -> at_ l j x -> i = j.
Proof.
  intros H Hi Hj. pose proof (at_lt _ _ _ Hi) as Li. destruct Hi as [Hi1 Hi2], Hj as [Hj1 Hj2].
  enough (Z.to_nat i = Z.to_nat j) by lia.
  rewrite NoDup_nth_error in H. apply H; [unfold zlen in Li; lia|congruence].
Qed.

Lemma perm_NoDup n p : index_permutation n p -> NoDup p.
Proof.
  intros H. eapply Permutation_NoDup; [apply Permutation_sym; exact H|].
  apply FinFun.Injective_map_NoDup; [intros x y; lia|apply seq_NoDup].
Qed.

Lemma take_increasing n a p s : table n a -> index_permutation (length a) p -> take a p = Some s ->
  sorted s -> NoDup a -> increasing s.
Proof.
  intros Ta Hp Es Hs Hd i j ri rj Hi Hj Hl. pose proof (take_table _ _ _ _ Ta Es) as Ts.
  destruct (sorted_le n s i j ri rj Ts Hs Hi Hj ltac:(lia)) as [K| ->]; [exact K|].
  destruct (take_inv _ _ _ _ _ Es Hi) as (x & Hx & Hx'). destruct (take_inv _ _ _ _ _ Es Hj) as (y & Hy & Hy').
  assert (x = y) by (eapply (NoDup_at a); eassumption). subst y.
  assert (i = j) by (eapply (NoDup_at p); [eapply perm_NoDup; exact Hp| |]; eassumption). lia.
Qed.

Lemma take_pairs (la lb : list Z) m : (forall p q, In (p, q) m -> 0 <= p < zlen la /\ 0 <= q < zlen lb) ->
  exists x y, take la (map fst m) = Some x /\ take lb (map snd m) = Some y /\
    forall i j, In (i, j) (combine x y) <-> exists p q, In (p, q) m /\ at_ la p i /\ at_ lb q j.
Proof.
  induction m as [|[p q] m IH]; intros H; cbn [map fst snd].
  - exists [], []. split; [reflexivity|]. split; [reflexivity|]. intros i j. split; [intros []|]. intros (p & q & [] & _).
  - destruct IH as (x & y & Ex & Ey & IH); [intros; apply H; now right|].
    destruct (H p q (or_introl eq_refl)) as [Hp Hq].
    destruct (at_exists la p Hp) as (u & Hu). destruct (at_exists lb q Hq) as (v & Hv).
    exists (u :: x), (v :: y). cbn [take fold_right].
    fold (take la (map fst m)). fold (take lb (map snd m)). rewrite Ex, Ey.
    rewrite (proj2 (znth_at _ _ _) Hu), (proj2 (znth_at _ _ _) Hv).
    split; [reflexivity|]. split; [reflexivity|]. intros i j. cbn [combine]. split.
    + intros [K|K].
      * injection K as <- <-. exists p, q. split; [now left|auto].
      * apply IH in K as (p' & q' & K & K'). exists p', q'. split; [now right|auto].
    + intros (p' & q' & [K|K] & Hi & Hj).
      * injection K as <- <-. left. rewrite (at_fun _ _ _ _ Hi Hu), (at_fun _ _ _ _ Hj Hv). reflexivity.
      * right. apply IH. exists p', q'. auto.
Qed.

Lemma zlen_take {A} (l r : list A) p : index_permutation (length l) p -> take l p = Some r -> zlen r = zlen l.
Proof.
  intros Hp E. destruct (take_spec l p (perm_range _ _ Hp)) as (r' & E' & L & _).
  rewrite E in E'. injection E' as <-. unfold zlen. rewrite L. rewrite (perm_len _ _ Hp). reflexivity.
Qed.

Lemma time_common_map_spec n a_ind b_ind a b sa sb : table n a -> table n b ->
  index_permutation (length a) a_ind -> index_permutation (length b) b_ind ->
  take a a_ind = Some sa -> take b b_ind = Some sb -> sorted sa -> sorted sb ->
  (NoDup a \/ NoDup b) ->
  exists m, time_common_map a_ind b_ind a b = Some m /\
    (forall i j, In (i, j) m -> exists r, at_ a i r /\ at_ b j r) /\
    (forall i r, at_ a i r -> In r b -> exists j, In (i, j) m) /\
    (forall j r, at_ b j r -> In r a -> exists i, In (i, j) m).
Proof.
  intros Ta Tb Pa Pb Ea Eb Sa Sb Hd. unfold time_common_map. rewrite Ea, Eb.
  pose proof (take_table _ _ _ _ Ta Ea) as Tsa. pose proof (take_table _ _ _ _ Tb Eb) as Tsb.
  pose proof (zlen_take _ _ _ Pa Ea) as La. pose proof (zlen_take _ _ _ Pb Eb) as Lb.
  destruct (common_map_spec n sa sb Tsa Tsb Sa Sb) as (m & -> & H1 & H2 & H3 & _ & H5 & H6).
  assert (Hlen : zlen m <= Z.max (zlen a) (zlen b)).
  { destruct Hd as [Hd|Hd].
    - specialize (H5 (take_increasing _ _ _ _ Ta Pa Ea Sa Hd)). lia.
    - specialize (H6 (take_increasing _ _ _ _ Tb Pb Eb Sb Hd)). lia. }
  destruct (Z.leb_spec (zlen m) (Z.max (zlen a) (zlen b))); [|lia].
  assert (Lpa : zlen a_ind = zlen a) by (unfold zlen; now rewrite (perm_len _ _ Pa)).
  assert (Lpb : zlen b_ind = zlen b) by (unfold zlen; now rewrite (perm_len _ _ Pb)).
  destruct (take_pairs a_ind b_ind m) as (x & y & Ex & Ey & Hxy).
  { intros p q Hpq. destruct (H1 p q Hpq) as (r & X & Y). apply at_lt in X, Y. lia. }
  rewrite Ex, Ey. exists (combine x y). split; [reflexivity|].
  split; [|split].
  - intros i j K. apply Hxy in K as (p & q & K & Hi & Hj). destruct (H1 p q K) as (r & X & Y).
    destruct (take_inv _ _ _ _ _ Ea X) as (i' & Hi' & Hr). rewrite (at_fun _ _ _ _ Hi Hi').
    destruct (take_inv _ _ _ _ _ Eb Y) as (j' & Hj' & Hr'). rewrite (at_fun _ _ _ _ Hj Hj'). eauto.
  - intros i r Hi Hin.
    assert (Hp : In i a_ind) by (eapply perm_all; [exact Pa|apply at_lt in Hi; exact Hi]).
    apply at_in in Hp as (p & Hp).
    destruct (take_spec a a_ind (perm_range _ _ Pa)) as (s' & E' & _ & T). rewrite Ea in E'. injection E' as <-.
    destruct (T p i Hp) as (r' & Hr1 & Hr2). pose proof (at_fun _ _ _ _ Hi Hr2). subst r'.
    destruct (H2 p r Hr1) as (q & Hq); [apply (take_In _ _ _ Pb Eb); exact Hin|].
    destruct (H1 p q Hq) as (r' & _ & Hr'). destruct (take_inv _ _ _ _ _ Eb Hr') as (j & Hj & _).
    exists j. apply Hxy. exists p, q. auto.
  - intros i r Hi Hin.
    assert (Hp : In i b_ind) by (eapply perm_all; [exact Pb|apply at_lt in Hi; exact Hi]).
    apply at_in in Hp as (p & Hp).
    destruct (take_spec b b_ind (perm_range _ _ Pb)) as (s' & E' & _ & T). rewrite Eb in E'. injection E' as <-.
    destruct (T p i Hp) as (r' & Hr1 & Hr2). pose proof (at_fun _ _ _ _ Hi Hr2). subst r'.
    destruct (H3 p r Hr1) as (q & Hq); [apply (take_In _ _ _ Pa Ea); exact Hin|].
    destruct (H1 q p Hq) as (r' & Hr' & _). destruct (take_inv _ _ _ _ _ Ea Hr') as (j & Hj & _).
    exists j. apply Hxy. exists q, p. auto.
Qed.

(** *** timeutils._uniquify *)
Lemma py_uniquify_spec n S fields s : (0 < n)%nat -> table n fields ->
  index_permutation (length fields) S -> take fields S = Some s -> sorted s ->
  exists res, py_uniquify S fields = Some res /\ increasing res /\ (forall x, In x res <-> In x fields).
Proof.
  intros Hn Tf Hp Es Hs. unfold py_uniquify. rewrite Es.
  destruct (uniquify_spec n s Hn (take_table _ _ _ _ Tf Es) Hs) as (res & E & Hi & Hr).
  exists res. split; [exact E|]. split; [exact Hi|]. intros x. rewrite Hr. apply (take_In _ _ _ Hp Es).
Qed.

(** *** sorting by value sorts the records
    [vals] = the axis' values array, [s] the records in argsort order. *)
Lemma take_sorted_by_value {V} (lt : V -> V -> Prop) vals isrt recs sv s :
  index_permutation (length recs) isrt -> length vals = length recs ->
  take vals isrt = Some sv -> take recs isrt = Some s ->
  (forall i j x y, at_ sv i x -> at_ sv j y -> i < j -> ~ lt y x) ->
  (forall i j x y ri rj, at_ vals i x -> at_ vals j y -> at_ recs i ri -> at_ recs j rj ->
      lex_lt ri rj -> lt x y) ->
  sorted s.
Proof.
  intros Hp Hl Ev Es Hsv Hmono i j ri rj Hi Hj Hlt K.
  destruct (take_inv _ _ _ _ _ Es Hi) as (p & Hp1 & Hp2). destruct (take_inv _ _ _ _ _ Es Hj) as (q & Hq1 & Hq2).
  destruct (take_spec vals isrt) as (sv' & E' & _ & T).
  { rewrite Forall_forall. intros z Hz. pose proof (perm_range _ _ Hp) as R. rewrite Forall_forall in R.
    specialize (R z Hz). unfold zlen. rewrite Hl. exact R. }
  rewrite Ev in E'. injection E' as <-.
  destruct (T i p Hp1) as (x & Hx1 & Hx2). destruct (T j q Hq1) as (y & Hy1 & Hy2).
  apply (Hsv i j x y Hx1 Hy1 Hlt). exact (Hmono q p y x rj ri Hy2 Hx2 Hq2 Hp2 K).
Qed.
