From Coq Require Import ZArith List Bool Lia ZifyBool Permutation Sorted.
From Verif Require Import Loop TimeSearchModel TimeSearchSpec.
Import ListNotations.
Open Scope Z_scope.
Ltac Zify.zify_post_hook ::= Z.to_euclidean_division_equations.

(** *** the order *)
Lemma lex_lt_length a b : lex_lt a b -> length a = length b.
Proof. induction 1; cbn; congruence. Qed.

Lemma lex_irrefl a : ~ lex_lt a a.
Proof. induction a as [|x a IH]; intros H; inversion H; subst; [lia|auto]. Qed.

Lemma lex_trans a b c : lex_lt a b -> lex_lt b c -> lex_lt a c.
Proof.
  intros H; revert c. induction H as [x y a b Hxy Hl|x a b H IH]; intros c Hc; inversion Hc; subst.
  - apply ll_here; [lia|congruence].
  - apply ll_here; [lia|]. rewrite Hl. now apply lex_lt_length.
  - apply ll_here; [lia|]. apply lex_lt_length in H. congruence.
  - apply ll_next. auto.
Qed.

Lemma lex_trich a b : length a = length b -> lex_lt a b \/ a = b \/ lex_lt b a.
Proof.
  revert b; induction a as [|x a IH]; intros [|y b]; cbn; intros H; try discriminate; auto.
  injection H as H. destruct (Z.lt_trichotomy x y) as [Hx|[->|Hx]].
  - left. now apply ll_here.
  - destruct (IH b H) as [K|[-> |K]]; [left|right; left|right; right]; auto using ll_next.
  - right; right. now apply ll_here.
Qed.

Lemma lex_asym a b : lex_lt a b -> ~ lex_lt b a.
Proof. intros H K. apply (lex_irrefl a). eapply lex_trans; eassumption. Qed.

Lemma not_lt_cases a b : length a = length b -> ~ lex_lt b a -> lex_lt a b \/ a = b.
Proof. intros H K. destruct (lex_trich a b H) as [|[|]]; auto. contradiction. Qed.

Lemma lt_le_trans a b c : length b = length c -> lex_lt a b -> ~ lex_lt c b -> lex_lt a c.
Proof. intros L H K. destruct (not_lt_cases b c L K) as [K'|<-]; auto. eapply lex_trans; eassumption. Qed.

Lemma le_lt_trans a b c : length a = length b -> ~ lex_lt b a -> lex_lt b c -> lex_lt a c.
Proof. intros L H K. destruct (not_lt_cases a b L H) as [K'| ->]; auto. eapply lex_trans; eassumption. Qed.

Lemma scan_spec key r : length key = length r -> key <> [] ->
  match scan key r with
  | KeyLess => lex_lt key r
  | KeyGreater => lex_lt r key
  | Match => key = r
  | Undecided => False
  end.
Proof.
  revert r; induction key as [|k ks IH]; intros [|v vs]; cbn [length scan]; intros H Hn; try discriminate; [congruence|].
  injection H as H. destruct (Z.ltb_spec k v); [now apply ll_here|].
  destruct (Z.gtb_spec k v); [now apply ll_here|].
  assert (k = v) as -> by lia. destruct ks as [|k' ks].
  - destruct vs; [reflexivity|discriminate].
  - specialize (IH vs H ltac:(congruence)). destruct (scan (k' :: ks) vs); auto using ll_next. congruence.
Qed.

Lemma row_le_spec s l : length s = length l -> (row_le s l = true <-> ~ lex_lt l s).
Proof.
  revert l; induction s as [|a s IH]; intros [|b l]; cbn [length row_le]; intros H; try discriminate.
  - split; [intros _ K; inversion K|auto].
  - injection H as H. destruct (Z.ltb_spec a b).
    + split; [intros _ K; inversion K; subst; lia|auto].
    + destruct (Z.gtb_spec a b).
      * split; [discriminate|]. intros K; exfalso; apply K. apply ll_here; auto.
      * assert (a = b) as -> by lia. rewrite IH by auto. split; intros K L; apply K; [|now apply ll_next].
        inversion L; subst; [lia|auto].
Qed.

Lemma cmpval_spec x y : length x = length y ->
  (cmpval x y = 0 <-> x = y) /\ (cmpval x y < 0 <-> lex_lt x y) /\ (cmpval x y > 0 <-> lex_lt y x).
Proof.
  revert y; induction x as [|a x IH]; intros [|b y]; cbn [length cmpval]; intros H; try discriminate.
  - repeat split; auto; intros K; try lia; inversion K.
  - injection H as H. destruct (Z.eqb_spec (a - b) 0) as [E|E]; cbn [negb].
    + assert (a = b) as -> by lia. destruct (IH y H) as (I1 & I2 & I3). rewrite I1, I2, I3.
      repeat split; intros K; try congruence; try (now apply ll_next); try (inversion K; subst; [lia|auto]).
    + repeat split; intros K; try lia.
      * injection K as -> _. lia.
      * apply ll_here; [lia|auto].
      * inversion K; subst; lia.
      * apply ll_here; [lia|auto].
      * inversion K; subst; lia.
Qed.

(** *** indexing *)
Lemma znth_at {A} (l : list A) i x : znth l i = Some x <-> at_ l i x.
Proof.
  unfold znth, at_. destruct (Z.ltb_spec i 0); split; try discriminate; try lia; intuition.
Qed.

Lemma at_lt {A} (l : list A) i x : at_ l i x -> 0 <= i < zlen l.
Proof.
  intros [H1 H2]. assert (nth_error l (Z.to_nat i) <> None) as H3 by congruence.
  apply nth_error_Some in H3. unfold zlen. lia.
Qed.

Lemma at_exists {A} (l : list A) i : 0 <= i < zlen l -> exists x, at_ l i x.
Proof.
  intros H. destruct (nth_error l (Z.to_nat i)) as [x|] eqn:E.
  - exists x. split; [lia|exact E].
  - apply nth_error_None in E. unfold zlen in H. lia.
Qed.

Lemma at_fun {A} (l : list A) i x y : at_ l i x -> at_ l i y -> x = y.
Proof. intros [_ H1] [_ H2]. congruence. Qed.

Lemma at_in {A} (l : list A) x : In x l <-> exists i, at_ l i x.
Proof.
  split.
  - intros H. apply In_nth_error in H as [n H]. exists (Z.of_nat n). split; [lia|]. now rewrite Nat2Z.id.
  - intros (i & _ & H). eapply nth_error_In; eassumption.
Qed.

Lemma table_at n t i r : table n t -> at_ t i r -> length r = n.
Proof.
  intros H1 H2. unfold table in H1. rewrite Forall_forall in H1. apply H1, at_in. eauto.
Qed.

(** *** get_index *)
Lemma get_index_spec n values key : (0 < n)%nat -> table n values -> length key = n -> sorted values ->
  exists i, get_index values key = Some i /\
    ((at_ values i key) \/ (i = -1 /\ ~ In key values)).
Proof.
  intros Hn Ht Hk Hs. unfold get_index.
  set (I := fun st : Z * Z => 0 <= fst st /\ snd st < zlen values /\ fst st <= snd st + 1 /\
     (forall i r, at_ values i r -> i < fst st -> lex_lt r key) /\
     (forall i r, at_ values i r -> i > snd st -> lex_lt key r)).
  set (f := fun st : Z * Z => Z.max 0 (snd st - fst st + 1)).
  set (Q := fun o : option Z => exists i, o = Some i /\ ((at_ values i key) \/ (i = -1 /\ ~ In key values))).
  destruct (loop_inv (get_index_step values key) I f Q) with
     (n := fuel_for (zlen values)) (s := (0, zlen values - 1)) as (r & E & i & -> & Hi).
  - intros [lo up] (H1 & H2 & H2' & H3 & H4). cbn [fst snd] in *. unfold get_index_step; cbv beta iota zeta.
    destruct (Z.gtb_spec lo up).
    + exists (-1). split; [reflexivity|]. right. split; [reflexivity|].
      rewrite at_in. intros (i & Hi). destruct (Z_lt_dec i lo).
      * exact (lex_irrefl _ (H3 _ _ Hi l)).
      * exact (lex_irrefl _ (H4 i _ Hi ltac:(lia))).
    + set (m := Z.quot (lo + up) 2). assert (Hm : lo <= m <= up) by (unfold m; lia). clearbody m.
      destruct (at_exists values m ltac:(lia)) as (x & Hx).
      rewrite (proj2 (znth_at _ _ _) Hx).
      pose proof (table_at _ _ _ _ Ht Hx) as Lx.
      pose proof (scan_spec key x ltac:(congruence) ltac:(intros ->; cbn in Hk; lia)) as Hsc.
      destruct (scan key x).
      * unfold I, f; cbn [fst snd]. repeat split; try lia; auto.
        intros i r Hi Hgt. destruct (Z.eq_dec i m) as [->|].
        -- rewrite (at_fun _ _ _ _ Hi Hx). exact Hsc.
        -- eapply lt_le_trans; [|exact Hsc|]; [rewrite Lx; symmetry; eapply table_at; eassumption|].
           eapply Hs; [exact Hx|exact Hi|lia].
      * unfold I, f; cbn [fst snd]. repeat split; try lia; auto.
        intros i r Hi Hgt. destruct (Z.eq_dec i m) as [->|].
        -- rewrite (at_fun _ _ _ _ Hi Hx). exact Hsc.
        -- eapply le_lt_trans; [|exact (Hs i m r x Hi Hx ltac:(lia))|exact Hsc].
           rewrite Lx. eapply table_at; eassumption.
      * subst x. exists m. auto.
      * destruct Hsc.
  - unfold I; cbn [fst snd]. assert (0 <= zlen values) by (unfold zlen; lia).
    repeat split; try lia; intros i r Hi Hx; apply at_lt in Hi; lia.
  - unfold f; cbn [fst snd]. pose proof (fuel_for_ok (zlen values) ltac:(unfold zlen; lia)). unfold zlen in *; lia.
  - rewrite E. eauto.
Qed.

(** With zero fields the C loop never ends. *)
Lemma get_index_no_fields values : values <> [] -> Forall (fun r => r = []) values ->
  forall k, loop k (get_index_step values []) (0, zlen values - 1) = inl (0, zlen values - 1).
Proof.
  intros Hv Hf.
  assert (Hs : get_index_step values [] (0, zlen values - 1) = inl (0, zlen values - 1)).
  { unfold get_index_step; cbv beta iota zeta.
    assert (0 < zlen values) by (destruct values; [congruence|unfold zlen; cbn; lia]).
    destruct (Z.gtb_spec 0 (zlen values - 1)); [lia|].
    destruct (at_exists values (Z.quot (0 + (zlen values - 1)) 2) ltac:(lia)) as (x & Hx).
    rewrite (proj2 (znth_at _ _ _) Hx).
    rewrite Forall_forall in Hf. rewrite (Hf x) by (apply at_in; eauto). reflexivity. }
  induction k as [|k IH]; cbn [loop]; [exact Hs|]. rewrite IH. exact IH.
Qed.

Lemma get_indices_spec n values outs : (0 < n)%nat -> table n values -> table n outs -> sorted values ->
  exists ind, get_indices values outs = Some ind /\ length ind = length outs /\
    forall j key i, at_ outs j key -> at_ ind j i ->
      (at_ values i key) \/ (i = -1 /\ ~ In key values).
Proof.
  intros Hn Ht Ho Hs. induction outs as [|o outs IH]; cbn [get_indices].
  - exists []. split; [reflexivity|]. split; [reflexivity|]. intros j key i Hj _. apply at_lt in Hj.
    unfold zlen in Hj; cbn in Hj; lia.
  - inversion Ho; subst. destruct (get_index_spec (length o) values o Hn Ht eq_refl Hs) as (i & E & Hi).
    rewrite E. destruct (IH H2) as (ind & E2 & L & Hind). rewrite E2. exists (i :: ind).
    split; [reflexivity|]. split; [cbn; congruence|].
    intros j key i' [Hj1 Hj2] [_ Hj3]. destruct (Z.to_nat j) as [|k] eqn:Ek; cbn in Hj2, Hj3.
    + injection Hj2 as <-. injection Hj3 as <-. exact Hi.
    + apply (Hind (Z.of_nat k)); split; try lia; now rewrite Nat2Z.id.
Qed.

(** *** uniquify *)
Lemma at_app_l {A} (l l' : list A) i x : at_ l i x -> at_ (l ++ l') i x.
Proof.
  intros H. pose proof (at_lt _ _ _ H) as Hl. destruct H as [H1 H2]. split; [exact H1|].
  rewrite nth_error_app1; [exact H2|]. unfold zlen in Hl. lia.
Qed.

Lemma at_app_inv {A} (l : list A) y i x : at_ (l ++ [y]) i x -> at_ l i x \/ (i = zlen l /\ x = y).
Proof.
  intros [H1 H2]. destruct (Nat.ltb_spec (Z.to_nat i) (length l)) as [Hl|Hl].
  - rewrite nth_error_app1 in H2 by assumption. left; split; auto.
  - rewrite nth_error_app2 in H2 by assumption.
    destruct (Z.to_nat i - length l)%nat as [|k] eqn:E; cbn in H2.
    + injection H2 as <-. right. unfold zlen. split; [lia|reflexivity].
    + destruct k; discriminate.
Qed.

Lemma increasing_sorted t : increasing t -> sorted t.
Proof. intros H i j ri rj Hi Hj Hl. apply lex_asym. eapply H; eassumption. Qed.

Lemma sorted_tail x xs : sorted (x :: xs) -> sorted xs /\ (forall y, In y xs -> ~ lex_lt y x).
Proof.
  intros H. split.
  - intros i j ri rj [Hi1 Hi2] [Hj1 Hj2] Hl. apply (H (i + 1) (j + 1)); try lia.
    + split; [lia|]. rewrite Z2Nat.inj_add by lia. rewrite Nat.add_comm. exact Hi2.
    + split; [lia|]. rewrite Z2Nat.inj_add by lia. rewrite Nat.add_comm. exact Hj2.
  - intros y Hy. apply at_in in Hy as (i & Hi1 & Hi2).
    apply (H 0 (i + 1)); [split; [lia|reflexivity]| |lia].
    split; [lia|]. rewrite Z2Nat.inj_add by lia. rewrite Nat.add_comm. exact Hi2.
Qed.

Lemma uniquify_loop_spec n ins : (0 < n)%nat -> forall out, table n ins -> table n out -> sorted ins ->
  increasing out -> (forall x y, In x out -> In y ins -> ~ lex_lt y x) ->
  exists res, uniquify_loop ins out = Some res /\ increasing res /\ table n res /\
    forall x, In x res <-> In x out \/ In x ins.
Proof.
  intros Hn. induction ins as [|x xs IH]; intros out Ti To Hs Hinc Hle; cbn [uniquify_loop].
  - exists out. split; [reflexivity|]. split; [auto|]. split; [auto|]. cbn; tauto.
  - inversion Ti; subst. destruct (sorted_tail _ _ Hs) as [Hs' Hx].
    assert (Hgi : exists i, match out with [] => Some (-1) | _ => get_index out x end = Some i /\
       ((i <> -1 /\ In x out) \/ (i = -1 /\ ~ In x out))).
    { destruct out as [|o out']; [exists (-1); split; [reflexivity|]; right; split; auto|].
      destruct (get_index_spec (length x) (o :: out') x Hn To eq_refl (increasing_sorted _ Hinc)) as (i & E & Hi).
      rewrite E. exists i. split; [reflexivity|]. destruct Hi as [Hi|[-> Hi]]; [left|right; auto].
      pose proof (at_lt _ _ _ Hi). split; [lia|]. apply at_in; eauto. }
    destruct Hgi as (i & E & Hi). rewrite E.
    destruct Hi as [[Hi Hin]|[-> Hin]].
    + destruct (Z.eqb_spec i (-1)); [lia|].
      destruct (IH out H2 To Hs' Hinc) as (res & R1 & R2 & R3 & R4).
      { intros a b Ha Hb. apply Hle; [exact Ha|now right]. }
      exists res. repeat split; auto.
      * intros K. apply R4 in K. cbn; tauto.
      * intros K. apply R4. cbn in K. destruct K as [K|[<-|K]]; auto.
    + rewrite Z.eqb_refl.
      destruct (IH (out ++ [x]) H2) as (res & R1 & R2 & R3 & R4).
      * apply Forall_app; split; [exact To|repeat constructor].
      * exact Hs'.
      * intros a b ra rb Ha Hb Hl. apply at_app_inv in Ha. apply at_app_inv in Hb.
        destruct Hb as [Hb|[-> ->]].
        -- destruct Ha as [Ha|[-> ->]]; [eapply Hinc; eassumption|]. apply at_lt in Hb. lia.
        -- destruct Ha as [Ha|[-> ->]]; [|lia].
           assert (Hra : In ra out) by (apply at_in; eauto).
           destruct (not_lt_cases ra x) as [K|K].
           ++ rewrite (table_at _ _ _ _ To Ha). reflexivity.
           ++ apply Hle; [exact Hra|now left].
           ++ exact K.
           ++ subst ra. contradiction.
      * intros a b Ha Hb. apply in_app_or in Ha as [Ha|[<-|[]]]; [apply Hle; [exact Ha|now right]|].
        apply Hx, Hb.
      * exists res. repeat split; auto.
        -- intros K. apply R4 in K. rewrite in_app_iff in K. cbn in *. tauto.
        -- intros K. apply R4. rewrite in_app_iff. cbn in *. tauto.
Qed.

Lemma uniquify_spec n ins : (0 < n)%nat -> table n ins -> sorted ins ->
  exists res, uniquify ins = Some res /\ increasing res /\ (forall x, In x res <-> In x ins).
Proof.
  intros Hn Ht Hs. destruct (uniquify_loop_spec n ins Hn [] Ht) as (res & R1 & R2 & R3 & R4); auto.
  - constructor.
  - intros i j ri rj Hi. apply at_lt in Hi. unfold zlen in Hi; cbn in Hi; lia.
  - exists res. repeat split; auto; intros K; [apply R4 in K as [[]|K]; exact K|apply R4; auto].
Qed.

(** *** nearest_lower *)
Lemma nearest_lower_spec n t look : table n t -> length look = n -> sorted t ->
  exists i, nearest_lower t look = Some i /\
   ((exists r, at_ t i r /\ ~ lex_lt look r /\ forall j rj, at_ t j rj -> i < j -> lex_lt look rj)
    \/ (i = -1 /\ forall j rj, at_ t j rj -> lex_lt look rj)).
Proof.
  intros Ht Hk Hs. unfold nearest_lower.
  set (I := fun st : Z * Z => 0 <= fst st /\ snd st < zlen t /\ fst st <= snd st + 1 /\
     (0 < fst st -> fst st <= snd st /\ forall r, at_ t (fst st) r -> ~ lex_lt look r) /\
     (forall i r, at_ t i r -> i > snd st -> lex_lt look r)).
  set (f := fun st : Z * Z => Z.max 0 (snd st - fst st + 1)).
  set (Q := fun o : option Z => exists i, o = Some i /\
   ((exists r, at_ t i r /\ ~ lex_lt look r /\ forall j rj, at_ t j rj -> i < j -> lex_lt look rj)
    \/ (i = -1 /\ forall j rj, at_ t j rj -> lex_lt look rj))).
  destruct (loop_inv (nl_step t look) I f Q) with
     (n := fuel_for (zlen t)) (s := (0, zlen t - 1)) as (r & E & i & -> & Hi).
  - intros [lo up] (H1 & H2 & H2' & H3 & H4). cbn [fst snd] in *. unfold nl_step; cbv beta iota zeta.
    destruct (Z.leb_spec lo up).
    + set (m := Z.quot (lo + up + 1) 2).
      assert (Hm : lo <= m <= up /\ (lo < up -> lo < m)) by (unfold m; lia). clearbody m.
      destruct (at_exists t m ltac:(lia)) as (x & Hx).
      rewrite (proj2 (znth_at _ _ _) Hx).
      pose proof (table_at _ _ _ _ Ht Hx) as Lx.
      pose proof (row_le_spec x look ltac:(congruence)) as Hle.
      destruct (row_le x look).
      * pose proof (proj1 Hle eq_refl) as Hle'. destruct (Z.eqb_spec m up) as [Eu|Hne].
        -- subst m; exists up. split; [reflexivity|]. left. exists x. split; [exact Hx|]. split; [exact Hle'|].
           intros j rj Hj Hl. apply (H4 j); [exact Hj|lia].
        -- unfold I, f; cbn [fst snd]. split; [|lia]. split; [lia|]. split; [lia|]. split; [lia|]. split; [|exact H4].
           intros _. split; [lia|]. intros r Hr. rewrite (at_fun _ _ _ _ Hr Hx). exact Hle'.
      * assert (Hlt : lex_lt look x).
        { destruct (lex_trich look x) as [K|[K|K]]; [congruence|exact K| |];
            exfalso; (enough (false = true) by discriminate); apply Hle;
            [subst; apply lex_irrefl|now apply lex_asym]. }
        unfold I, f; cbn [fst snd].
        assert (Hlo : 0 < lo -> lo < m).
        { intros K. destruct (Z_lt_dec lo up) as [|Hge]; [tauto|].
          assert (lo = m) by lia. subst m. exfalso. destruct (H3 K) as [_ H3']. exact (H3' x Hx Hlt). }
        split; [|lia]. split; [lia|]. split; [lia|]. split; [lia|]. split.
        -- intros K. split; [specialize (Hlo K); lia|]. intros r Hr. apply H3; auto.
        -- intros i r Hi Hgt. destruct (Z.eq_dec i m) as [->|].
           ++ rewrite (at_fun _ _ _ _ Hi Hx). exact Hlt.
           ++ eapply lt_le_trans; [|exact Hlt|]; [rewrite Lx; symmetry; eapply table_at; eassumption|].
              eapply Hs; [exact Hx|exact Hi|lia].
    + assert (lo = 0) by (destruct (Z_lt_dec 0 lo) as [K|]; [destruct (H3 K); lia|lia]).
      exists (-1). destruct (Z.eqb_spec lo up); [lia|]. split; [reflexivity|]. right. split; [reflexivity|].
      intros j rj Hj. apply (H4 j); [exact Hj|]. apply at_lt in Hj. lia.
  - unfold I; cbn [fst snd]. assert (0 <= zlen t) by (unfold zlen; lia).
    repeat split; try lia; intros i r Hi Hx; apply at_lt in Hi; lia.
  - unfold f; cbn [fst snd]. pose proof (fuel_for_ok (zlen t) ltac:(unfold zlen; lia)). unfold zlen in *; lia.
  - rewrite E. eauto.
Qed.
