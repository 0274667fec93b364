(** C55, C56: common metadata; concatenating datasets. *)
From Coq Require Import ZArith List Bool Lia.
From Verif Require Import IndexModel ViewProofs CombineModel.
Import ListNotations.
Open Scope Z_scope.

(** a dictionary: every key occurs once *)
Definition keys_once {V} (d : list (Z * V)) : Prop := NoDup (map fst d).

Section Dicts.
Context {V : Type}.
Implicit Types d l : list (Z * V).
Lemma look_In k d v : look k d = Some v -> In (k, v) d.
Proof. unfold look. destruct (find _ d) as [[m z]|] eqn:E; [|discriminate]. intros H. injection H as <-. apply find_some in E as [H E]. apply Z.eqb_eq in E. subst. exact H. Qed.
Lemma look_cons k m v d : look k ((m, v) :: d) = if m =? k then Some v else look k d.
Proof. unfold look. cbn [find]. destruct (m =? k); reflexivity. Qed.
Lemma look_is k d v : keys_once d -> In (k, v) d -> look k d = Some v.
Proof.
  unfold keys_once. induction d as [|[m z] d IH]; intros HN H; [contradiction|]. cbn [map fst] in HN. apply NoDup_cons_iff in HN as [HN1 HN2]. rewrite look_cons. destruct (Z.eqb_spec m k) as [->|Hne].
  - destruct H as [E|H]; [injection E as ->; reflexivity|]. exfalso. apply HN1. apply (in_map fst) in H. exact H.
  - destruct H as [E|H]; [congruence|]. apply IH; auto.
Qed.
Lemma look_none k d : look k d = None <-> ~ In k (map fst d).
Proof.
  induction d as [|[m z] d IH]; [cbn; tauto|]. rewrite look_cons. cbn [map fst In]. destruct (Z.eqb_spec m k) as [->|Hne]; [split; [discriminate|tauto]|]. rewrite IH. tauto.
Qed.
Lemma look_app k d l : look k (d ++ l) = match look k d with Some v => Some v | None => look k l end.
Proof. induction d as [|[m z] d IH]; [reflexivity|]. cbn [app]. rewrite !look_cons, IH. destruct (m =? k); reflexivity. Qed.
Lemma look_rev k d : keys_once d -> look k (rev d) = look k d.
Proof.
  intros H. destruct (look k d) as [v|] eqn:E.
  - apply look_is; [unfold keys_once; rewrite map_rev; apply NoDup_rev; exact H|]. apply -> in_rev. apply look_In. exact E.
  - apply look_none. apply look_none in E. rewrite map_rev. intros Hin. apply E. apply in_rev. exact Hin.
Qed.
Lemma look_store k m v d : look k (store d m v) = if m =? k then Some v else look k d.
Proof.
  induction d as [|[m' z] d IH]; cbn [store]; [rewrite look_cons; reflexivity|]. destruct (Z.eqb_spec m' m) as [->|Hne]; rewrite !look_cons.
  - destruct (m =? k); reflexivity.
  - rewrite IH. destruct (Z.eqb_spec m' k) as [->|]; destruct (Z.eqb_spec m k) as [->|]; congruence.
Qed.
Lemma keys_store k v d : map fst (store d k v) = if existsb (Z.eqb k) (map fst d) then map fst d else map fst d ++ [k].
Proof.
  induction d as [|[m z] d IH]; [reflexivity|]. cbn [store map fst existsb]. rewrite (Z.eqb_sym k m). destruct (Z.eqb_spec m k) as [->|Hne]; cbn [orb map fst]; [reflexivity|]. rewrite IH. destruct (existsb _ _); reflexivity.
Qed.
Definition put_all l d := fold_left (fun d '(k, v) => store d k v) l d.
Lemma look_put k l d : look k (put_all l d) = match look k (rev l) with Some v => Some v | None => look k d end.
Proof.
  unfold put_all. induction l as [|[m v] l IH] using rev_ind; [reflexivity|]. rewrite fold_left_app. cbn [fold_left]. rewrite look_store, IH, rev_app_distr. cbn [rev app]. rewrite look_cons. destruct (m =? k); reflexivity.
Qed.
Lemma keys_put l d : NoDup (map fst d) -> NoDup (map fst (put_all l d)) /\ exists extra, map fst (put_all l d) = map fst d ++ extra /\ Forall (fun k => ~ In k (map fst d)) extra.
Proof.
  intros H. unfold put_all. induction l as [|[m v] l IH] using rev_ind; [split; [exact H|]; exists []; rewrite app_nil_r; auto|]. rewrite fold_left_app. cbn [fold_left].
  destruct IH as (N & extra & E & HF). rewrite keys_store. destruct (existsb _ _) eqn:Ex; [eauto|]. assert (~ In m (map fst (fold_left (fun d '(k, v) => store d k v) l d))) as Hm.
  { intros Hin. assert (existsb (Z.eqb m) (map fst (fold_left (fun d '(k, v) => store d k v) l d)) = true) as Hc by (apply existsb_exists; exists m; split; [exact Hin|apply Z.eqb_refl]). congruence. }
  split.
  - rewrite E in *. rewrite <- app_assoc. apply NoDup_rev in N. rewrite app_assoc, <- (rev_involutive ((map fst d ++ extra) ++ [m])), rev_app_distr. apply NoDup_rev. cbn [rev app]. constructor; [rewrite <- in_rev; exact Hm|exact N].
  - exists (extra ++ [m]). rewrite E, app_assoc. split; [reflexivity|]. apply Forall_app. split; [exact HF|]. constructor; [|constructor]. intros Hin. apply Hm. rewrite E. apply in_app_iff. auto.
Qed.
Lemma put_app a b d : put_all (a ++ b) d = put_all b (put_all a d).
Proof. apply fold_left_app. Qed.
Lemma put_same l : keys_once l -> map fst (put_all l []) = map fst l.
Proof.
  unfold keys_once. intros H. unfold put_all. induction l as [|[m v] l IH] using rev_ind; [reflexivity|]. rewrite map_app in H. cbn [map fst] in H.
  apply NoDup_remove in H. rewrite app_nil_r in H. destruct H as [H1 H2]. rewrite fold_left_app. cbn [fold_left]. rewrite keys_store, (IH H1), map_app. cbn [map fst].
  destruct (existsb (Z.eqb m) (map fst l)) eqn:E; [|reflexivity]. exfalso. apply existsb_exists in E as (x & Hx & Ex). apply Z.eqb_eq in Ex. subst. auto.
Qed.
Lemma merge_look ds d k : keys_once d -> look k (merge (ds ++ [d])) = match look k d with Some v => Some v | None => look k (merge ds) end.
Proof.
  intros H. unfold merge. fold (put_all (concat (ds ++ [d])) []). fold (put_all (concat ds) []). rewrite !look_put, concat_app. cbn [concat]. rewrite app_nil_r, rev_app_distr, look_app, (look_rev k d H).
  destruct (look k d); reflexivity.
Qed.
Lemma merge_once (ds : list (list (Z * V))) : keys_once (merge ds).
Proof. apply keys_put. constructor. Qed.
Lemma filter_once (P : Z * V -> bool) d : keys_once d -> keys_once (filter P d).
Proof.
  unfold keys_once. induction d as [|[m z] d IH]; intros H; [constructor|]. cbn [map fst] in H. apply NoDup_cons_iff in H as [H1 H2]. cbn [filter]. destruct (P _); [|auto]. cbn [map fst]. constructor; [|auto].
  intros Hin. apply H1. apply in_map_iff in Hin as (e & <- & He). apply filter_In in He as [He _]. apply in_map. exact He.
Qed.
Lemma filter_keys (P : Z * V -> bool) (Q : Z -> bool) d : (forall e, In e d -> P e = Q (fst e)) -> map fst (filter P d) = filter Q (map fst d).
Proof.
  induction d as [|e d IH]; intros H; [reflexivity|]. cbn [filter map]. rewrite <- (H e (or_introl eq_refl)). destruct (P e); cbn [map]; rewrite IH; auto; intros e' He; apply H; right; exact He.
Qed.
Lemma filter_none {A} (Q : A -> bool) (l : list A) : Forall (fun x => Q x = false) l -> filter Q l = [].
Proof. induction 1 as [|x l H _ IH]; [reflexivity|]. cbn [filter]. rewrite H. exact IH. Qed.
End Dicts.

(** *** Common attributes *)

Lemma common_look V (differ : V -> V -> bool) ds k v :
  look k (common_dict differ ds) = Some v <-> look k (merge ds) = Some v /\ Forall (fun d => exists w, look k d = Some w /\ differ w v = false) ds.
Proof.
  unfold common_dict. assert (forall v, survives differ ds (k, v) = true <-> Forall (fun d => exists w, look k d = Some w /\ differ w v = false) ds) as Hs.
  { intros u. unfold survives. cbn [fst snd]. rewrite forallb_forall, Forall_forall. split; intros H d Hd; specialize (H d Hd).
    - destruct (look k d) as [w|]; [|discriminate]. exists w. split; [reflexivity|]. destruct (differ w u); [discriminate|reflexivity].
    - destruct H as (w & -> & ->). reflexivity. }
  rewrite <- Hs. split.
  - intros H. apply look_In, filter_In in H as [H1 H2]. split; [apply look_is; [apply merge_once|exact H1]|exact H2].
  - intros [H1 H2]. apply look_is; [apply filter_once, merge_once|]. apply filter_In. split; [apply look_In; exact H1|exact H2].
Qed.

(** [common_dict] keeps exactly the entries whose key is in every dictionary with values that do not differ from that of the last one, and this is the value it takes. *)
Theorem C55_common : forall V (differ : V -> V -> bool) ds last, keys_once last -> forall k v,
  (In (k, v) (common_dict differ (ds ++ [last])) <-> In (k, v) last /\ Forall (fun d => exists w, look k d = Some w /\ differ w v = false) (ds ++ [last])) /\
  keys_once (common_dict differ (ds ++ [last])).
Proof.
  intros V differ ds last HN k v. assert (keys_once (common_dict differ (ds ++ [last]))) as Hk by (apply filter_once, merge_once). split; [|exact Hk].
  transitivity (look k (common_dict differ (ds ++ [last])) = Some v); [split; [apply look_is; exact Hk|apply look_In]|]. rewrite common_look, (merge_look ds last k HN). split.
  - intros [H1 H2]. split; [|exact H2]. apply Forall_app in H2 as [_ H2]. apply Forall_inv in H2. destruct H2 as (w & Hw & _). rewrite Hw in H1. injection H1 as <-. apply look_In. exact Hw.
  - intros [H1 H2]. rewrite (look_is k last v HN H1). auto.
Qed.
Print Assumptions C55_common.

(** When the test is equality of values: exactly the entries that all the dictionaries have, in the order of the first one. *)
Theorem C55_agreed : forall V (differ : V -> V -> bool) d0 rest, (forall x y, differ x y = false <-> x = y) -> Forall keys_once (d0 :: rest) ->
  let r := common_dict differ (d0 :: rest) in
  (forall k v, In (k, v) r <-> Forall (fun d => In (k, v) d) (d0 :: rest)) /\
  map fst r = filter (fun k => match look k r with Some _ => true | None => false end) (map fst d0).
Proof.
  intros V differ d0 rest Hd HN r. split.
  - intros k v. destruct (exists_last (l := d0 :: rest) ltac:(discriminate)) as (ds & last & E). subst r. rewrite E in *. apply Forall_app in HN as [N1 N2].
    destruct (C55_common V differ ds last (Forall_inv N2) k v) as [-> _]. rewrite !Forall_app. split.
    + intros (_ & H1 & H2). assert (forall l, Forall keys_once l -> Forall (fun d => exists w, look k d = Some w /\ differ w v = false) l -> Forall (fun d => In (k, v) d) l) as Hall.
      { intros l _ HF. eapply Forall_impl; [|exact HF]. intros d (w & Hw & Ew). apply Hd in Ew. subst. apply look_In. exact Hw. }
      split; apply Hall; auto.
    + intros [H1 H2]. split; [exact (Forall_inv H2)|]. assert (forall l, Forall keys_once l -> Forall (fun d => In (k, v) d) l -> Forall (fun d => exists w, look k d = Some w /\ differ w v = false) l) as Hall.
      { intros l HF1 HF2. rewrite Forall_forall in *. intros d Hin. exists v. split; [apply look_is; auto|]. apply Hd. reflexivity. }
      split; apply Hall; auto.
  - set (m := merge (d0 :: rest)).
    assert (map fst m = map fst (put_all d0 []) ++ skipn (length (map fst (put_all d0 []))) (map fst m) /\ Forall (fun k => ~ In k (map fst d0)) (skipn (length (map fst (put_all d0 []))) (map fst m))) as [Em HF].
    { change m with (put_all (d0 ++ concat rest) []). rewrite put_app. destruct (keys_put (concat rest) (put_all d0 [])) as (_ & extra & E & HF); [apply keys_put; constructor|].
      rewrite E. rewrite skipn_app, Nat.sub_diag, skipn_all. cbn [app skipn]. split; [reflexivity|]. rewrite (put_same d0 (Forall_inv HN)) in HF. exact HF. }
    set (extra := skipn _ _) in *. rewrite (put_same d0 (Forall_inv HN)) in Em.
    subst r. set (Q := fun k => match look k (common_dict differ (d0 :: rest)) with Some _ => true | None => false end).
    transitivity (filter Q (map fst m)).
    + unfold common_dict at 1. apply filter_keys. intros [k v] He. cbn [fst]. unfold Q. fold m.
      destruct (survives differ (d0 :: rest) (k, v)) eqn:Es.
      * assert (look k (common_dict differ (d0 :: rest)) = Some v) as -> by (apply look_is; [apply filter_once, merge_once|]; apply filter_In; split; [exact He|exact Es]). reflexivity.
      * destruct (look k (common_dict differ (d0 :: rest))) as [w|] eqn:E; [|reflexivity]. exfalso. apply look_In, filter_In in E as [E1 E2]. fold m in E1.
        assert (w = v) by (apply (look_is k m w (merge_once _)) in E1; apply (look_is k m v (merge_once _)) in He; congruence). congruence.
    + rewrite Em, filter_app. rewrite (filter_none Q extra), app_nil_r; [reflexivity|]. eapply Forall_impl; [|exact HF]. intros k Hk. unfold Q.
      destruct (look k (common_dict differ (d0 :: rest))) as [w|] eqn:E; [|reflexivity]. exfalso. apply common_look in E as [_ E]. destruct (Forall_inv E) as (u & Hu & _). apply Hk. apply look_In in Hu. apply (in_map fst) in Hu. exact Hu.
Qed.
Print Assumptions C55_agreed.

Lemma opt_eqb_iff a b : opt_eqb a b = true <-> a = b.
Proof. destruct a, b; cbn; try (split; congruence). rewrite Z.eqb_eq. split; congruence. Qed.
Lemma agreed_same {A} (f : A -> option Z) old x0 rest : (forall x, In x rest -> f x = f x0) -> agreed_att old (map f (x0 :: rest)) = f x0.
Proof.
  intros H. cbn [map agreed_att]. replace (forallb (opt_eqb (f x0)) (map f rest)) with true; [reflexivity|]. symmetry. apply forallb_forall. intros y Hy. apply in_map_iff in Hy as (x & <- & Hx). apply opt_eqb_iff. symmetry. auto.
Qed.
Lemma agreed_differ {A} (f : A -> option Z) old x0 rest : (exists x, In x rest /\ f x <> f x0) -> agreed_att old (map f (x0 :: rest)) = old.
Proof.
  intros (x & Hx & Hne). cbn [map agreed_att]. destruct (forallb _ _) eqn:E; [|reflexivity]. exfalso. rewrite forallb_forall in E. specialize (E _ (in_map f _ _ Hx)). apply opt_eqb_iff in E. congruence.
Qed.
(** The metadata of a variable computed from several: a name (units) shared by all of them is kept, otherwise it stays as it was; attributes are the common ones, plot attributes those common to the arguments that are not axes. *)
Theorem C55_combine : forall V (differ : V -> V -> bool) x0 rest out, let r := combine_meta differ (x0 :: rest) out in
  ((forall x, In x rest -> m_name x = m_name x0) -> m_name r = m_name x0) /\ ((exists x, In x rest /\ m_name x <> m_name x0) -> m_name r = m_name out) /\
  ((forall x, In x rest -> m_units x = m_units x0) -> m_units r = m_units x0) /\ ((exists x, In x rest /\ m_units x <> m_units x0) -> m_units r = m_units out) /\
  m_atts r = common_dict differ (map m_atts (x0 :: rest)) /\
  (exists vars, (forall x, In x vars <-> In x (x0 :: rest) /\ m_axis x = false) /\ m_plot r = common_dict differ (map m_plot vars)).
Proof.
  intros V differ x0 rest out r. unfold r, combine_meta. cbn [m_name m_units m_atts m_plot].
  split; [apply agreed_same|]. split; [apply agreed_differ|]. split; [apply agreed_same|]. split; [apply agreed_differ|]. split; [reflexivity|].
  eexists. split; [|reflexivity]. intros x. rewrite filter_In, negb_true_iff. reflexivity.
Qed.
Print Assumptions C55_combine.

(** Attributes that the files or datasets do not agree on do not get into the result of concat and open_multi. *)
Theorem C55_no_conflict : forall V (differ : V -> V -> bool) d0 d1 rest k v, (forall x y, differ x y = false <-> x = y) -> Forall keys_once (d0 :: d1 :: rest) ->
  (In (k, v) (concat_atts differ (d0 :: d1 :: rest)) <-> Forall (fun d => In (k, v) d) (d0 :: d1 :: rest)) /\
  (In (k, v) (multi_atts differ d0 d1) <-> In (k, v) d0 /\ In (k, v) d1).
Proof.
  intros V differ d0 d1 rest k v Hd HN. split; [exact (proj1 (C55_agreed V differ d0 (d1 :: rest) Hd HN) k v)|]. unfold multi_atts.
  rewrite (proj1 (C55_agreed V differ d0 [d1] Hd (Forall_cons _ (Forall_inv HN) (Forall_cons _ (Forall_inv (Forall_inv_tail HN)) (Forall_nil _)))) k v).
  split; [intros H; split; [exact (Forall_inv H)|exact (Forall_inv (Forall_inv_tail H))]|intros [H1 H2]; auto].
Qed.
Print Assumptions C55_no_conflict.

(** With a single file that first and last coincide, everything is kept. *)
Theorem C55_idempotent : forall V (differ : V -> V -> bool) d n, (forall x y, differ x y = false <-> x = y) -> keys_once d ->
  forall k v, In (k, v) (common_dict differ (repeat d (S n))) <-> In (k, v) d.
Proof.
  intros V differ d n Hd HN k v. cbn [repeat]. rewrite (proj1 (C55_agreed V differ d (repeat d n) Hd ltac:(constructor; [exact HN|apply Forall_forall; intros x Hx; apply repeat_spec in Hx; subst; exact HN]))).
  split; [intros H; exact (Forall_inv H)|intros H; constructor; [exact H|apply Forall_forall; intros x Hx; apply repeat_spec in Hx; subst; exact H]].
Qed.
Print Assumptions C55_idempotent.

Definition ne (a b : Z) : bool := negb (a =? b).
(** The global attributes of an ensemble are not the common ones: what the members disagree on, or only one of them has, is there all the same. *)
Theorem C55_ensemble_refuted : exists d0 d1, keys_once d0 /\ keys_once d1 /\ In (1, 6) (ensemble_atts ne [d0; d1]) /\ ~ In (1, 6) d0 /\ In (2, 7) (ensemble_atts ne [d0; d1]) /\ ~ In 2 (map fst d1).
Proof. exists [(1, 5); (2, 7)], [(1, 6)]. repeat split; try (apply NoDup_cons_iff; split; [cbn; intuition discriminate|]); try (repeat constructor; cbn; intuition discriminate); cbn; auto; intuition discriminate. Qed.
Print Assumptions C55_ensemble_refuted.
(** Adding a dataset to another keeps the attributes of the first, common or not. *)
Theorem C55_add_refuted : exists d0 d1, keys_once d0 /\ keys_once d1 /\ In (1, 5) (add_atts d0 [d1]) /\ In (1, 6) d1.
Proof. exists [(1, 5)], [(1, 6)]. repeat split; try (repeat constructor; cbn; intuition discriminate); cbn; auto. Qed.
Print Assumptions C55_add_refuted.

Example C55_example :
  (forall x y, ne x y = false <-> x = y) /\ Forall keys_once [[(1, 5); (2, 7); (3, 1)]; [(3, 1); (1, 6); (2, 7)]] /\
  common_dict ne [[(1, 5); (2, 7); (3, 1)]; [(3, 1); (1, 6); (2, 7)]] = [(2, 7); (3, 1)] /\
  (* values that are not equal to themselves (NaN) are never common *)
  common_dict (fun _ _ => true) [[(1, 5)]] = [] /\
  combine_meta ne [MkMeta (Some 1) (Some 8) [(1, 5)] [(4, 4)] false; MkMeta (Some 2) (Some 8) [(1, 5); (2, 2)] [] true] (MkMeta (Some 0) None [] [] false) = MkMeta (Some 0) (Some 8) [(1, 5)] [(4, 4)] false.
Proof.
  split; [intros x y; unfold ne; destruct (Z.eqb_spec x y); cbn; split; congruence|]. split; [|repeat split].
  constructor; [|constructor; [|constructor]]; unfold keys_once; cbn; repeat constructor; cbn; intuition discriminate.
Qed.

(** *** Concatenating datasets *)

Lemma mem_spec n l : CombineModel.mem n l = true <-> In n l.
Proof. unfold CombineModel.mem. rewrite existsb_exists. split; [intros (x & Hx & E); apply Z.eqb_eq in E; subst; exact Hx|intros H; exists n; split; [exact H|apply Z.eqb_refl]]. Qed.
Lemma varnames_spec {X} (l : list (Z * X)) : fold_left (fun l '(n, _) => if CombineModel.mem n l then l else l ++ [n]) l [] = rev (nodup Z.eq_dec (rev (map fst l))).
Proof.
  induction l as [|[n x] l IH] using rev_ind; [reflexivity|]. rewrite fold_left_app, IH. cbn [fold_left]. rewrite map_app, rev_app_distr. cbn [map fst rev app nodup].
  destruct (in_dec Z.eq_dec n (rev (map fst l))) as [Hin|Hin].
  - assert (CombineModel.mem n (rev (nodup Z.eq_dec (rev (map fst l)))) = true) as ->; [|reflexivity]. apply mem_spec. apply -> in_rev. apply nodup_In. exact Hin.
  - assert (CombineModel.mem n (rev (nodup Z.eq_dec (rev (map fst l)))) = false) as ->; [|reflexivity]. apply not_true_is_false. rewrite mem_spec. intros H. apply Hin. apply (nodup_In Z.eq_dec). apply in_rev. exact H.
Qed.
Lemma segments_one {X} n (d : list (Z * X)) : keys_once d -> map snd (filter (fun '(m, _) => m =? n) d) = match look n d with Some x => [x] | None => [] end.
Proof.
  unfold keys_once. induction d as [|[m x] d IH]; intros H; [reflexivity|]. cbn [map fst] in H. apply NoDup_cons_iff in H as [H1 H2]. rewrite look_cons. cbn [filter]. destruct (Z.eqb_spec m n) as [->|Hne].
  - cbn [map snd]. rewrite (IH H2). apply look_none in H1. rewrite H1. reflexivity.
  - apply IH. exact H2.
Qed.
Lemma segments_spec {X} n (ds : list (list (Z * X))) : Forall keys_once ds -> segments n ds = flat_map (fun d => match look n d with Some x => [x] | None => [] end) ds.
Proof.
  unfold segments. induction 1 as [|d ds H HF IH]; [reflexivity|]. cbn [concat flat_map]. rewrite filter_app, map_app, IH, (segments_one n d H). reflexivity.
Qed.
Lemma sequence_all {A B} (f : A -> option B) l r : sequence (map f l) = Some r <-> Forall2 (fun a b => f a = Some b) l r.
Proof.
  revert r. induction l as [|a l IH]; intros r; cbn [map sequence].
  - split; [intros H; injection H as <-; constructor|intros H; inversion H; reflexivity].
  - destruct (f a) as [b|] eqn:E.
    + destruct (sequence (map f l)) as [t|] eqn:Et.
      * split; [intros H; injection H as <-; constructor; [exact E|apply IH; reflexivity]|]. intros H. inversion H as [|? b' ? t' H1 H2]; subst. rewrite E in H1. injection H1 as <-. apply IH in H2. injection H2 as <-. reflexivity.
      * split; [discriminate|]. intros H. inversion H as [|? b' ? t' H1 H2]; subst. apply IH in H2. discriminate.
    + split; [discriminate|]. intros H. inversion H as [|? b' ? t' H1 H2]; subst. congruence.
Qed.

(** The names of all the datasets, each once, in the order they are first met; the variables of a name, in the order of the datasets: a single one is taken as it is, several are joined. *)
Theorem C56_datasets : forall X (join : list X -> option X) d0 d1 rest r, let ds := d0 :: d1 :: rest in Forall keys_once ds ->
  (concat_datasets join ds = Some r <->
   map fst r = rev (nodup Z.eq_dec (rev (flat_map (map fst) ds))) /\
   forall n x, In (n, x) r -> match flat_map (fun d => match look n d with Some x => [x] | None => [] end) ds with [x0] => x = x0 | xs => join xs = Some x end).
Proof.
  intros X join d0 d1 rest r ds HN. unfold concat_datasets. cbn [ds]. fold ds. unfold dset in *. match goal with |- context [sequence (map ?f ?l)] => pose proof (sequence_all f l r) as Hq end. rewrite Hq. clear Hq.
  assert (varnames ds = rev (nodup Z.eq_dec (rev (flat_map (map fst) ds)))) as En.
  { unfold varnames. rewrite varnames_spec. do 3 f_equal. rewrite concat_map, <- flat_map_concat_map. reflexivity. }
  assert (forall n x, option_map (pair n) (join_segments join (segments n ds)) = Some x <-> fst x = n /\ match flat_map (fun d => match look n d with Some x => [x] | None => [] end) ds with [x0] => snd x = x0 | xs => join xs = Some (snd x) end) as Hs.
  { clear En. intros n [m x]. rewrite (segments_spec n ds HN). unfold join_segments. cbn [fst snd]. unfold dict in *. match goal with |- context [@flat_map ?a ?b ?f ds] => generalize (@flat_map a b f ds) end. intros [|x0 [|x1 l]]; cbv iota; cbn [option_map].
    - destruct (join []) as [y|]; cbn [option_map]; (split; [intros H; inversion H; auto|intros [-> H]; congruence]).
    - split; [intros H; injection H as <- <-; auto|intros [-> ->]; reflexivity].
    - destruct (join (x0 :: x1 :: l)) as [y|]; cbn [option_map]; (split; [intros H; inversion H; auto|intros [-> H]; congruence]). }
  rewrite <- En. clear En. generalize (varnames ds). intros l. split.
  - intros H. induction H as [|n x l r Hx H IH]; [split; [reflexivity|intros n x []]|]. apply Hs in Hx as [<- Hx]. destruct IH as [IH1 IH2]. split; [cbn; rewrite IH1; reflexivity|]. intros n y [E|Hin]; [subst x; exact Hx|apply IH2; exact Hin].
  - intros [<- H]. induction r as [|[n x] r IH]; constructor.
    + apply Hs. split; [reflexivity|]. apply H. left. reflexivity.
    + apply IH. intros m y Hin. apply H. right. exact Hin.
Qed.
Print Assumptions C56_datasets.
(** so no dataset's variable is lost *)
Theorem C56_all_there : forall X (join : list X -> option X) d0 d1 rest r, Forall keys_once (d0 :: d1 :: rest) -> concat_datasets join (d0 :: d1 :: rest) = Some r ->
  keys_once r /\ forall n, In n (map fst r) <-> exists d, In d (d0 :: d1 :: rest) /\ In n (map fst d).
Proof.
  intros X join d0 d1 rest r HN H. apply (C56_datasets X join d0 d1 rest r HN) in H as [E _]. split.
  - unfold keys_once. rewrite E. apply NoDup_rev, NoDup_nodup.
  - intros n. rewrite E, <- in_rev, nodup_In, <- in_rev, in_flat_map. reflexivity.
Qed.
Print Assumptions C56_all_there.
Example C56_example : Forall keys_once [[(1, 10); (2, 20)]; [(3, 30); (1, 11)]] /\
  concat_datasets (fun l => Some (fold_right Z.add 0 l)) [[(1, 10); (2, 20)]; [(3, 30); (1, 11)]] = Some [(1, 21); (2, 20); (3, 30)].
Proof. split; [constructor; [|constructor; [|constructor]]; unfold keys_once; cbn; repeat constructor; cbn; intuition discriminate|reflexivity]. Qed.
