(** Selections with means and squeezes. *)
From Coq Require Import ZArith List Bool Lia QArith_base Qcanon String Ascii.
From Verif Require InterpView.
From Verif Require Import SortSpec IndexModel IndexSpec IndexProofs ArrModel ArrProofs ViewModel ViewSpec ViewProofs AxisModel AxisSpec AxisProofs VarOpsModel VarOpsSpec VarOpsProofs VarOpsLemmas
  NumModel ReduceModel ReduceSpec ReduceProps FibreProofs RespondProofs ConcatVar StencilModel SelectModel SelectSpec SelectProofs CallModel CallSpec.
Import ListNotations.
Open Scope Z_scope.
Open Scope list_scope.

(** *** squeezing what is only asked for increasing parts *)
Section Squeeze.
Context {V : Type} (env : axenv) (Henv : env_ok env) (junk : list Z -> V).
Notation var := (ViewModel.var axis V).
Notation get := (ViewModel.get (axis_ops env) junk).
Lemma squeeze_core_responds (x : var) D gone : responds env x D -> List.length gone = List.length (var_axes x) ->
  Forall2 (fun g a => g = true -> axis_len a = 1) gone (var_axes x) ->
  let y := Var (dropped gone (var_axes x)) (GetView (fun v => match get v x false false with Some values => reshape values (vshape v) | None => None end)) in
  responds env y (fun q => D (refill 0 gone q)).
Proof.
  intros Hx Hl Hone y. pose proof Hx as [Hsep _]. pose proof (separate_NoDup _ Hsep) as Hnd.
  set (K := dropped gone (var_axes x)) in *.
  assert (List.length K = List.length (dropped gone gone)) as HKl by (apply dropped_length; auto).
  split.
  - cbn. intros i j a b Ha Hb Hne. apply (separate_In _ _ _ Hsep); try (eapply dropped_In, nth_error_In; eassumption).
    intros ->. apply Hne. pose proof (dropped_NoDup gone _ Hnd) as HndK. rewrite NoDup_nth_error in HndK. change (nth_error (dropped gone (var_axes x)) i = Some a) in Ha. change (nth_error (dropped gone (var_axes x)) j = Some a) in Hb.
    apply HndK; [apply nth_error_Some; rewrite Ha; discriminate|now rewrite Ha, Hb].
  - cbn. intros L Hr.
    assert (Forall2 (fun b l => l <> [] /\ in_range (axis_len b) l) K L) as HKI by (eapply Forall2_impl; [|exact Hr]; intros a l (H1 & H2 & _); auto).
    pose proof (Forall2_len _ _ _ HKI) as HI.
    assert (Forall2 selection (var_axes x) (refill [0] gone L)) as Hsel.
    { clear -Hr Hl Hone. unfold K in Hr. clear K. revert L Hr. generalize (var_axes x) Hl Hone. clear. induction gone as [|g gone IH]; intros [|a A] Hl Hone L Hr; try discriminate; [constructor|].
      inversion Hone; subst. destruct g; cbn [refill dropped] in *.
      - constructor; [|apply IH; auto]. split; [discriminate|]. split; [constructor; [rewrite (H2 eq_refl); lia|constructor]|].
        intros i j u v [Hi Hu] [Hj Hv] Hij. destruct (Z.to_nat i) as [|n] eqn:Ei; cbn in Hu; [|destruct n; discriminate]. destruct (Z.to_nat j) as [|m] eqn:Ej; cbn in Hv; [lia|destruct m; discriminate].
      - inversion Hr; subst. constructor; [assumption|]. apply IH; auto. }
    destruct (get_raw_fetch env junk (view_of_inds K L) false x D (refill [0] gone L)) as (r & Hget & Hs & Hv).
    { apply (fetch_inc env junk x D _ Hx Hsel). }
    { eapply Forall2_impl; [|eapply (squeeze_map env junk K L) with (pre := []) (preI := []); auto].
      - intros a m (sl & oi & E1 & E2 & E3 & _). exists sl, oi. auto.
      - unfold K. now apply dropped_NoDup.
      - intros a b Ha Hb Hne. eapply separate_In; eauto. eapply dropped_In, Hb.
      - apply Forall2_intro_nth; [exact Hl|]. intros i g a Hgi Hai Eg. split.
        + exact (Forall2_nth_error _ _ _ _ _ _ Hone Hgi Hai Eg).
        + exact (Forall2_nth_error _ _ _ _ _ _ (dropped_not_In gone _ Hnd Hl) Hgi Hai Eg). }
    cbn in Hget. rewrite Hget. change (vshape (view_of_inds K L)) with (map zlen L). unfold reshape.
    rewrite Hs, refill_map. change (zlen [0]) with 1.
    assert (List.length (map zlen L) = List.length (dropped gone gone)) as HIl by (rewrite map_length; lia).
    rewrite (prod_refill junk _ _ HIl), Z.eqb_refl. eexists. split; [reflexivity|]. split; [reflexivity|]. cbn [val]. intros q Hq.
    destruct (refill_position junk gone _ q HIl Hq) as [P1 P2]. rewrite <- P2, unravel_ravel by exact P1.
    rewrite Hv by (rewrite refill_map; exact P1). f_equal. apply (gather_refill junk); [rewrite map_length in HIl; exact HIl|].
    pose proof (Forall2_len _ _ _ Hq) as E. rewrite map_length in E. lia.
Qed.
Lemma squeeze_responds (x : var) D iaxes : responds env x D ->
  let y := squeeze_var env junk x iaxes in
  exists gone D', List.length gone = List.length (var_axes x) /\
    (forall i a, nth_error (var_axes x) i = Some a -> nth_error gone i = Some true <-> (iaxes = [] \/ In i iaxes) /\ axis_len a = 1) /\
    var_axes y = dropped gone (var_axes x) /\ responds env y D' /\
    forall p, position (var_shape x) p -> D' (dropped gone p) = D p.
Proof.
  intros Hx y. set (n := List.length (var_axes x)).
  set (f := fun i => existsb (Nat.eqb i) match iaxes with [] => seq 0 n | _ => iaxes end && (axis_len (nth i (var_axes x) (NonCoord (MkNonCoord [] [] []))) =? 1)).
  set (gone := map f (seq 0 n)).
  assert (List.length gone = n) as Hl by (unfold gone; now rewrite map_length, seq_length).
  assert (forall i a, nth_error (var_axes x) i = Some a -> nth_error gone i = Some true <-> (iaxes = [] \/ In i iaxes) /\ axis_len a = 1) as Hf.
  { intros i a Ha. assert (i < n)%nat as Hi by (apply nth_error_Some; congruence). unfold gone. rewrite nth_error_map, nth_error_seq. destruct (Nat.ltb_spec i n); [|lia]. cbn [option_map Nat.add].
    assert (forall b, Some b = Some true <-> b = true) as E by (intros b; split; congruence). rewrite E. unfold f. rewrite (nth_error_nth _ _ _ Ha), andb_true_iff, Z.eqb_eq.
    assert (existsb (Nat.eqb i) match iaxes with [] => seq 0 n | _ => iaxes end = true <-> iaxes = [] \/ In i iaxes) as ->; [|tauto].
    rewrite existsb_In. destruct iaxes as [|k iaxes]; [rewrite in_seq; split; [now left|lia]|]. split; [auto|]. intros [K|K]; [discriminate|exact K]. }
  assert (Forall2 (fun g a => g = true -> axis_len a = 1) gone (var_axes x)) as Hone.
  { apply Forall2_intro_nth; [exact Hl|]. intros i g a Hg Ha ->. now apply (Hf i a Ha) in Hg. }
  assert (map snd (filter (fun '(i, _) => negb (f i)) (combine (seq 0 n) (var_axes x))) = dropped gone (var_axes x)) as Ea by apply squeeze_axes.
  exists gone, (fun q => D (refill 0 gone q)). split; [exact Hl|]. split; [exact Hf|].
  assert (y = Var (dropped gone (var_axes x)) (GetView (fun v => match get v x false false with Some values => reshape values (vshape v) | None => None end))) as ->.
  { unfold y, squeeze_var. cbv zeta. f_equal. rewrite <- Ea. reflexivity. }
  split; [reflexivity|]. split; [now apply squeeze_core_responds|].
  intros p Hp. f_equal. eapply refill_dropped; [|exact Hp]. unfold var_shape. apply Forall2_map_r. exact Hone.
Qed.
End Squeeze.

(** *** names *)
Lemma first_axis_ext N A B k j : Forall2 (fun a b => forall k, alias N b k = alias N a k) A B -> first_axis N A k j -> first_axis N B k j.
Proof.
  intros H [(a & Ha & Hk) Hb]. pose proof (Forall2_len _ _ _ H) as HL. split.
  - destruct (nth_error B j) as [b|] eqn:E; [|apply nth_error_None in E; assert (j < List.length A)%nat by (apply nth_error_Some; congruence); lia].
    exists b. split; [reflexivity|]. now rewrite (Forall2_nth_error _ _ _ _ _ _ H Ha E).
  - intros i b Hi E. destruct (nth_error A i) as [a'|] eqn:E'; [|apply nth_error_None in E'; assert (i < List.length B)%nat by (apply nth_error_Some; congruence); lia].
    rewrite (Forall2_nth_error _ _ _ _ _ _ H E' E). eauto.
Qed.
Lemma first_axis_unique N A k j j' : first_axis N A k j -> first_axis N A k j' -> j = j'.
Proof. intros H H'. apply which_axis_spec in H, H'. congruence. Qed.
Lemma same_names N A B names js : Forall2 (fun a b => forall k, alias N b k = alias N a k) A B ->
  sequence (map (which_axis N A) names) = Some js -> sequence (map (which_axis N B) names) = Some js.
Proof.
  intros H E. apply sequence_Forall2 in E. apply (proj2 (sequence_Forall2 _ _ _)). eapply Forall2_impl; [|exact E]. cbv beta. intros k j K. apply which_axis_spec. apply which_axis_spec in K. eapply first_axis_ext; eauto.
Qed.

(** the place of element [j] after the elements marked are dropped *)
Fixpoint rank (gone : list bool) (j : nat) : nat :=
  match gone, j with g :: gone, S j => ((if g then 0 else 1) + rank gone j)%nat | _, _ => 0%nat end.
Lemma dropped_nth {A} gone (l : list A) j : nth_error gone j = Some false -> nth_error (dropped gone l) (rank gone j) = nth_error l j.
Proof.
  revert l j. induction gone as [|g gone IH]; intros [|a l] [|j] H; try discriminate; cbn in H |- *.
  - injection H as ->. reflexivity.
  - destruct g, (rank gone j); reflexivity.
  - injection H as ->. reflexivity.
  - destruct g; cbn; now apply IH.
Qed.
Lemma rank_below gone j i : nth_error gone j = Some false -> (i < rank gone j)%nat -> exists i', (i' < j)%nat /\ nth_error gone i' = Some false /\ i = rank gone i'.
Proof.
  revert j i. induction gone as [|g gone IH]; intros [|j] i H Hi; cbn in *; try lia. destruct g; cbn in Hi.
  - destruct (IH j i H Hi) as (i' & H1 & H2 & H3). exists (S i'). repeat split; auto. lia.
  - destruct i as [|i]; [exists 0%nat; repeat split; auto; lia|]. destruct (IH j i H) as (i' & H1 & H2 & H3); [lia|]. exists (S i'). cbn. repeat split; auto; lia.
Qed.
Lemma rank_inj gone i j : nth_error gone i = Some false -> nth_error gone j = Some false -> rank gone i = rank gone j -> i = j.
Proof.
  revert i j. induction gone as [|g gone IH]; intros [|i] [|j] Hi Hj H; cbn in *; try discriminate; try reflexivity.
  - injection Hi as ->. discriminate.
  - injection Hj as ->. discriminate.
  - f_equal. apply IH; auto. destruct g; lia.
Qed.
Lemma first_axis_dropped N A gone k j : first_axis N A k j -> nth_error gone j = Some false -> first_axis N (dropped gone A) k (rank gone j).
Proof.
  intros [(a & Ha & Hk) Hb] Hg. split; [exists a; split; [now rewrite dropped_nth|exact Hk]|].
  intros i b Hi E. destruct (rank_below gone j i Hg Hi) as (i' & H1 & H2 & ->). rewrite dropped_nth in E by exact H2. eauto.
Qed.
(** dropping twice *)
Fixpoint merge (g1 g2 : list bool) : list bool :=
  match g1 with
  | [] => []
  | true :: g1 => true :: merge g1 g2
  | false :: g1 => match g2 with b :: g2 => b :: merge g1 g2 | [] => false :: merge g1 [] end
  end.
Lemma dropped_merge {A} g1 g2 (l : list A) : List.length l = List.length g1 -> List.length g2 = List.length (dropped g1 l) -> dropped g2 (dropped g1 l) = dropped (merge g1 g2) l.
Proof.
  revert g2 l. induction g1 as [|g g1 IH]; intros g2 [|a l] H H2; try discriminate.
  - destruct g2 as [|[] g2]; reflexivity.
  - destruct g; cbn in H2 |- *; [apply IH; [now injection H|exact H2]|]. destruct g2 as [|b g2]; [discriminate|]. cbn.
    destruct b; cbn; [|f_equal]; (apply IH; [now injection H|now injection H2]).
Qed.
Lemma length_merge g1 g2 : List.length (merge g1 g2) = List.length g1.
Proof. revert g2. induction g1 as [|[] g1 IH]; intros g2; cbn; [reflexivity|now rewrite IH|]. destruct g2; cbn; now rewrite IH. Qed.
Lemma nth_merge g1 g2 j : List.length g2 = List.length (dropped g1 g1) ->
  nth_error (merge g1 g2) j = Some true <-> nth_error g1 j = Some true \/ (nth_error g1 j = Some false /\ nth_error g2 (rank g1 j) = Some true).
Proof.
  revert g2 j. induction g1 as [|g g1 IH]; intros g2 j H; [destruct j; cbn; split; [discriminate|intros [K|[K _]]; discriminate|discriminate|intros [K|[K _]]; discriminate]|].
  destruct g; cbn in H |- *.
  - destruct j; cbn; [tauto|]. now apply IH.
  - destruct g2 as [|b g2]; [discriminate|]. destruct j; cbn.
    + split; [right; auto|]. intros [K|[_ K]]; [discriminate|exact K].
    + apply IH. now injection H.
Qed.
Lemma dropped_none {A} (l : list A) g : List.length g = List.length l -> Forall (fun b => b = false) g -> dropped g l = l.
Proof. revert l. induction g as [|b g IH]; intros [|a l] H HF; try discriminate; [reflexivity|]. inversion HF; subst. cbn. f_equal. apply IH; auto. Qed.
Lemma dropped_pos g ns p : position ns p -> position (dropped g ns) (dropped g p).
Proof. intros H. revert g. induction H as [|n i ns p Hi H IH]; intros [|[] g]; cbn; try constructor; auto; apply IH. Qed.
Lemma map_dropped {A B} (f : A -> B) g l : map f (dropped g l) = dropped g (map f l).
Proof. revert l. induction g as [|[] g IH]; intros [|a l]; cbn; try reflexivity; [apply IH|now rewrite IH]. Qed.

(** *** the means asked for *)
Definition means_of (N : naming) (axes : list axis) (kv : string * request) : list string :=
  let '(p, ax) := if has_axis N axes (fst kv) then (EmptyString, fst kv) else match split_key (fst kv) with Some pr => pr | None => (EmptyString, fst kv) end in
  if has_letter "m" p then [ax] else [].
Lemma prefixes_means N axes kw : forall means sq new ms ss new', prefixes N axes kw means sq new = Some (ms, ss, new') -> ms = means ++ flat_map (means_of N axes) kw.
Proof.
  induction kw as [|[k v] kw IH]; intros means sq new ms ss new' H; cbn [prefixes flat_map] in *; [injection H as <- _ _; now rewrite app_nil_r|].
  unfold means_of at 1. cbn [fst]. destruct (if has_axis N axes k then _ else _) as [p ax]. destruct ((has_letter "m" p || has_letter "s" p) && negb (has_axis N axes ax)); [discriminate|].
  apply IH in H. rewrite H. destruct (has_letter "m" p); [now rewrite <- app_assoc|reflexivity].
Qed.
Lemma means_of_In N axes kv ax : In ax (means_of N axes kv) <-> asks N axes "m" kv ax.
Proof.
  unfold means_of, asks. destruct (call_named_total N axes (fst kv)) as (p & ax0 & Hk). rewrite (proj2 (call_parse N axes (fst kv) p ax0) Hk). split.
  - destruct (has_letter "m" p) eqn:E; [|intros []]. intros [<-|[]]. exists p. split; [exact Hk|now apply has_letter_spec].
  - intros (p' & Hp & Hl). destruct (call_named_unique _ _ _ _ _ _ _ Hk Hp) as [<- <-]. apply has_letter_spec in Hl. rewrite Hl. now left.
Qed.
Lemma means_of_one N axes kv : means_of N axes kv = [] \/ exists ax, means_of N axes kv = [ax].
Proof. unfold means_of. destruct (if has_axis N axes (fst kv) then _ else _) as [p ax]. destruct (has_letter "m" p); eauto. Qed.
Lemma means_distinct N axes kw : averaged_once N axes kw -> forall js, sequence (map (which_axis N axes) (flat_map (means_of N axes) kw)) = Some js -> NoDup js.
Proof.
  intros H js E. apply sequence_Forall2 in E. revert H js E. induction kw as [|kv kw IH]; intros H js E; cbn [flat_map] in E; [inversion E; constructor|].
  assert (averaged_once N axes kw) as H'. { intros pre kv0 post kv' ax ax' j -> . apply (H (kv :: pre) kv0 post). reflexivity. }
  destruct (means_of_one N axes kv) as [Em|(ax & Em)]; rewrite Em in E; cbn [app] in E; [now apply IH|].
  inversion E as [|? j ? js' Hj Hjs]; subst. constructor; [|now apply IH]. intros Hin.
  destruct (Forall2_In_r _ _ _ _ Hjs Hin) as (ax' & Hax' & E'). apply in_flat_map in Hax' as (kv' & Hkv' & Ha').
  apply (H [] kv kw kv' ax ax' j eq_refl Hkv').
  - apply means_of_In. rewrite Em. now left.
  - now apply means_of_In.
  - now apply which_axis_spec.
  - now apply which_axis_spec.
Qed.

(** *** the mean over the axes with the given names *)
Section Means.
Context (N : naming) (env : axenv) (Henv : env_ok env) (junk : list Z -> num) (MAX : Z) (HMAX : 1 <= MAX).
Notation var := (ViewModel.var axis num).
Definition own_weights (axes : list axis) (js : list nat) (W : option (list Z -> num)) : Prop :=
  (W = None /\ forall j a, In j js -> nth_error axes j = Some a -> auxarray N a "weights" = None) \/
  (exists i a ws, In i js /\ nth_error axes i = Some a /\ auxarray N a "weights" = Some ws /\
     W = Some (fun q => Fin (Q2Qc (nth (Z.to_nat (nth i q 0)) ws 0%Q))) /\
     forall j b, In j js -> nth_error axes j = Some b -> j <> i -> auxarray N b "weights" = None).
Lemma no_weights axes js As : Forall2 (fun j a => nth_error axes j = Some a) js As -> (forall j a, In j js -> nth_error axes j = Some a -> auxarray N a "weights" = None) ->
  flat_map (fun a => match auxarray N a "weights" with Some ws => [weights_var a ws] | None => [] end) As = [].
Proof.
  induction 1 as [|j a js As Ha HF IH]; intros H; [reflexivity|]. cbn [flat_map]. rewrite (H j a (or_introl eq_refl) Ha), IH; [reflexivity|]. intros; eapply H; eauto. now right.
Qed.
Lemma one_weights axes js As i a ws : Forall2 (fun j a => nth_error axes j = Some a) js As -> NoDup js -> In i js -> nth_error axes i = Some a -> auxarray N a "weights" = Some ws ->
  (forall j b, In j js -> nth_error axes j = Some b -> j <> i -> auxarray N b "weights" = None) ->
  flat_map (fun a => match auxarray N a "weights" with Some ws => [weights_var a ws] | None => [] end) As = [weights_var a ws].
Proof.
  induction 1 as [|j b js As Hb HF IH]; intros Hnd Hin Ha Hw H; [destruct Hin|]. inversion Hnd as [|? ? Hj Hnd']; subst. cbn [flat_map]. destruct Hin as [->|Hin].
  - assert (b = a) as -> by congruence. rewrite Hw. rewrite (no_weights axes js As HF); [reflexivity|]. intros k c Hk Hc. apply (H k c); [now right|exact Hc|]. intros ->. exact (Hj Hk).
  - rewrite (H j b (or_introl eq_refl) Hb); [|intros ->; exact (Hj Hin)]. cbn [app]. apply IH; auto. intros k c Hk. apply H. now right.
Qed.
Lemma distinct_NoDup js : NoDup js -> distinct js = true.
Proof. intros H. unfold distinct. rewrite nodup_fixed_point by exact H. apply Nat.eqb_refl. Qed.
Lemma weights_responds a ws : responds env (weights_var a ws) (fun p => Fin (Q2Qc (nth (Z.to_nat (nth 0 p 0)) ws 0%Q))).
Proof.
  split.
  - intros i j b c Hi Hj Hne. cbn in Hi, Hj. destruct i as [|i], j as [|j]; try congruence; cbn in Hi, Hj; try (destruct i; discriminate); destruct j; discriminate.
  - cbn. split; [reflexivity|]. intros p _. reflexivity.
Qed.
Lemma mean_names_spec (x : var) D names js W : responds env x D -> Forall good_axis (var_axes x) -> sequence (map (which_axis N (var_axes x)) names) = Some js -> NoDup js -> js <> [] ->
  (forall j a, In j js -> nth_error (var_axes x) j = Some a -> 0 < axis_len a) -> own_weights (var_axes x) js W ->
  exists z E, mean_names N env junk MAX x names = Some z /\ var_axes z = dropped (reduced_flags (List.length (var_axes x)) js) (var_axes x) /\ responds env z E /\
    forall k, position (var_shape z) k -> mean_of W D (fibre (reduced_flags (List.length (var_axes x)) js) (var_shape x) k) (E k).
Proof.
  intros Hx Hg Hjs Hnd Hne Hpos HW. pose proof Hjs as Hj2. apply sequence_Forall2 in Hj2.
  assert (forall j, In j js -> exists a, nth_error (var_axes x) j = Some a) as Hex.
  { intros j Hj. destruct (Forall2_In_r _ _ _ _ Hj2 Hj) as (k & _ & Hk). apply which_axis_spec in Hk as [(a & Ha & _) _]. eauto. }
  assert (exists As, sequence (map (nth_error (var_axes x)) js) = Some As /\ Forall2 (fun j a => nth_error (var_axes x) j = Some a) js As) as (As & EA & HA).
  { clear -Hex. induction js as [|j js IH]; [exists []; split; [reflexivity|constructor]|]. destruct (Hex j (or_introl eq_refl)) as (a & Ha). destruct IH as (As & E & HF); [intros; apply Hex; now right|].
    exists (a :: As). cbn. rewrite Ha. cbn. rewrite E. split; [reflexivity|constructor; auto]. }
  assert (reducible x js) as Hr.
  { split; [exact Hne|]. split; [exact Hnd|]. apply Forall_forall. intros j Hj. destruct (Hex j Hj) as (a & Ha). exists a. split; [exact Ha|]. eapply Hpos; eauto. }
  unfold mean_names. rewrite Hjs. cbn [bind]. rewrite (distinct_NoDup _ Hnd). cbn [negb]. rewrite EA. cbn [bind]. unfold get_weights.
  destruct HW as [[-> Hnone]|(i & a & ws & Hi & Ha & Hws & -> & Hothers)].
  - rewrite (no_weights _ _ _ HA Hnone). cbn [bind]. destruct (C25_mean env MAX junk x D js Henv HMAX Hx Hg Hr) as (y & Hy & Hax & E & HE & _ & Hv).
    exists y, E. split; [exact Hy|]. split; [exact Hax|]. split; [exact HE|]. exact Hv.
  - rewrite (one_weights _ _ _ i a ws HA Hnd Hi Ha Hws Hothers). cbn [bind].
    destruct (C25_weighted_mean env MAX junk x (weights_var a ws) D _ js [i] Henv HMAX Hx (weights_responds a ws) Hg Hr) as (y & Hy & Hax & E & HE & _ & Hv).
    + split; [constructor; [intros []|constructor]|]. constructor; [auto|constructor].
    + intros q. eauto.
    + exists y, E. split; [exact Hy|]. split; [exact Hax|]. split; [exact HE|]. exact Hv.
Qed.
End Means.

Section Whole.
Context (N : naming) (env : axenv) (Henv : env_ok env) (junk : list Z -> num) (MAX : Z) (HMAX : 1 <= MAX).
Notation var := (ViewModel.var axis num).
Lemma flag_In n js j : (j < n)%nat -> nth_error (reduced_flags n js) j = Some true <-> In j js.
Proof.
  intros Hj. change (reduced_flags n js) with (map (fun i => existsb (Nat.eqb i) js) (seq 0 n)). rewrite nth_error_map, nth_error_seq. destruct (Nat.ltb_spec j n); [|lia]. cbn [option_map Nat.add].
  rewrite <- existsb_In. split; congruence.
Qed.
Lemma flags_length n js : List.length (reduced_flags n js) = n.
Proof. unfold reduced_flags. now rewrite map_length, seq_length. Qed.
Lemma fibre_position gone s k q : In q (fibre gone s k) -> position s q.
Proof. unfold fibre, positions. rewrite filter_In. intros [H _]. now apply InterpView.in_positions in H. Qed.
Lemma slices_of (axes bxes : list axis) inds : List.length bxes = List.length axes -> Forall2 (fun '(a, b) l => sliced a l b) (combine axes bxes) inds ->
  forall j a b l, nth_error axes j = Some a -> nth_error bxes j = Some b -> nth_error inds j = Some l -> sliced a l b.
Proof.
  intros HL H j a b l Ha Hb Hl. assert (nth_error (combine axes bxes) j = Some (a, b)) as E.
  { clear -Ha Hb. revert bxes j Ha Hb. induction axes as [|a' axes IH]; intros [|b' bxes] [|j] Ha Hb; cbn in *; try discriminate; [congruence|eauto]. }
  exact (Forall2_nth_error _ _ _ _ _ _ H E Hl).
Qed.
Lemma call_all_spec (x : var) D kw kw' W : holds env x D -> Forall (full_arrays N) (var_axes x) -> follows_slices N ->
  (forall kv ax, In kv kw -> asks N (var_axes x) "m" kv ax \/ asks N (var_axes x) "s" kv ax -> axis_name N (var_axes x) ax) ->
  Forall2 (strips N (var_axes x)) kw kw' -> NoDup (map fst kw') ->
  (forall k v, In (k, v) kw' -> exists a, In a (var_axes x) /\ about N a k) ->
  good_keywords N (var_axes x) kw' ->
  averaged_once N (var_axes x) kw -> (forall j, asked N (var_axes x) "m" kw j -> asked N (var_axes x) "s" kw j -> False) ->
  weights_of N (var_axes x) kw W ->
  (forall inds j l, all_selected N (var_axes x) kw' inds -> asked N (var_axes x) "m" kw j -> nth_error inds j = Some l -> l <> []) ->
  exists y inds zs E means gone, call_all N env junk MAX x kw = Some y /\
    all_selected N (var_axes x) kw' inds /\
    Forall2 (fun '(a, b) l => sliced a l b) (combine (var_axes x) zs) inds /\ List.length zs = List.length (var_axes x) /\
    List.length means = List.length (var_axes x) /\ List.length gone = List.length (var_axes x) /\
    (forall j l, nth_error inds j = Some l -> (nth_error means j = Some true <-> asked N (var_axes x) "m" kw j) /\
       (nth_error gone j = Some true <-> asked N (var_axes x) "m" kw j \/ (asked N (var_axes x) "s" kw j /\ zlen l = 1))) /\
    var_axes y = dropped gone zs /\ responds env y E /\
    forall p, position (map zlen inds) p ->
      ((forall j, ~ asked N (var_axes x) "m" kw j) -> E (dropped gone p) = D (gather inds p)) /\
      (forall j, asked N (var_axes x) "m" kw j -> mean_of W D (map (gather inds) (fibre means (map zlen inds) (dropped means p))) (E (dropped gone p))).
Proof.
  intros Hx Hf HN Hms Hst Hnd Hab Hg Honce Hdis HW Hne. unfold call_all.
  set (A := var_axes x) in *. set (n := List.length A).
  destruct (prefixes_spec N A kw [] [] [] kw' Hms Hst Hnd) as (ms & ss & Ep & Hm & Hs). rewrite Ep. cbn [app] in *.
  destruct (get_slices_total N A Hf kw' Hg) as ([sls rest] & E). rewrite E.
  destruct (get_slices_spec N A Hf kw' _ _ E) as (inds & -> & Hall & Hrest).
  assert (rest = []) as ->.
  { destruct rest as [|[k v] rest]; [reflexivity|]. exfalso. destruct (proj1 (Hrest k v) (or_introl eq_refl)) as [H1 H2]. destruct (Hab k v H1) as (a & Ha & K). exact (H2 a Ha K). }
  pose proof Hall as [Hlen Hsel].
  assert (Forall2 (fun '(n, s) l => index_of_slice s n l) (combine (map axis_len A) (map simplify inds)) inds) as Hidx.
  { apply slices_chosen; [exact Hlen|]. intros j a l Ha Hl. apply (Hsel j a l Ha Hl). }
  destruct (slice_total env Henv junk x D (map Sl (map simplify inds)) (map simplify inds) inds Hx) as (y & Hy & Hsl & Hsh & Hget & Hh).
  { exists (map simplify inds), [], 0%nat. split; [right; split; reflexivity|]. cbn. rewrite app_nil_r. split; [reflexivity|]. rewrite map_length. exact Hlen. }
  { exact Hidx. }
  rewrite Hy. cbn [bind].
  assert (List.length (var_axes y) = n) as HLy. { apply (f_equal (@List.length Z)) in Hsh. unfold var_shape in Hsh. rewrite !map_length in Hsh. unfold n, A in *. lia. }
  pose proof (slices_of A (var_axes y) inds HLy Hsl) as Hnth.
  assert (Forall2 (fun a b => forall k, alias N b k = alias N a k) A (var_axes y)) as Hal.
  { apply Forall2_intro_nth; [now rewrite HLy|]. intros j a b Ha Hb. destruct (nth_error inds j) as [l|] eqn:El.
    - exact (proj1 (HN a l b (Hnth j a b l Ha Hb El))).
    - apply nth_error_None in El. assert (j < List.length A)%nat by (apply nth_error_Some; congruence). lia. }
  assert (holds env y (fun p => D (gather inds p))) as Hhy.
  { apply Hh. apply Forall_forall. intros l Hl. apply In_nth_error in Hl as (j & Hj). destruct (nth_error A j) as [a|] eqn:Ea.
    - apply increasing_distinct. apply (Hsel j a l Ea Hj).
    - exfalso. apply nth_error_None in Ea. assert (nth_error inds j <> None) as K by congruence. apply nth_error_Some in K. lia. }
  pose proof (getable_responds env y _ (proj1 Hhy)) as Hry. pose proof (proj2 Hhy) as Hgy.
  assert (forall j, (j < n)%nat -> exists a b l, nth_error A j = Some a /\ nth_error (var_axes y) j = Some b /\ nth_error inds j = Some l) as Hthree.
  { intros j Hj. destruct (nth_error A j) as [a|] eqn:Ea; [|apply nth_error_None in Ea; unfold n in Hj; lia]. destruct (nth_error (var_axes y) j) as [b|] eqn:Eb; [|apply nth_error_None in Eb; lia].
    destruct (nth_error inds j) as [l|] eqn:El; [|apply nth_error_None in El; unfold n in Hj; lia]. eauto 6. }
  destruct (names_located N A ms) as (jm & Ejm & Hjm). { intros ax Hin. apply Hm in Hin as (kv & Hkv & Ha). apply (Hms kv ax Hkv). now left. }
  destruct (names_located N A ss) as (js & Ejs & Hjs). { intros ax Hin. apply Hs in Hin as (pre & kv & post & -> & Ha & _). apply (Hms kv ax); [apply in_app_iff; right; now left|now right]. }
  assert (forall j, In j jm <-> asked N A "m" kw j) as Hmean.
  { intros j. rewrite Hjm. split; [intros (ax & Hin & Hfa); apply Hm in Hin as (kv & Hkv & Ha); exists kv, ax; auto|]. intros (kv & ax & Hkv & Ha & Hfa). exists ax. split; [apply Hm; eauto|exact Hfa]. }
  assert (forall j, In j js <-> asked N A "s" kw j) as Hsq.
  { intros j. rewrite Hjs. split.
    - intros (ax & Hin & Hfa). apply Hs in Hin as (pre & kv & post & -> & Ha & _). exists kv, ax. split; [apply in_app_iff; right; now left|auto].
    - intros (kv & ax & Hkv & Ha & Hfa). exists ax. split; [|exact Hfa]. apply Hs. apply in_split in Hkv as (pre & post & ->). exists pre, kv, post. split; [reflexivity|]. split; [exact Ha|]. split; [intros []|].
      intros kv' Hin Ha'. apply (Hdis j); [|exists kv, ax; split; [apply in_app_iff; right; now left|auto]]. exists kv', ax. split; [|auto]. apply in_app_iff in Hin as [Hin|[<-|[]]]; apply in_app_iff; [now left|right; now left]. }
  pose proof (prefixes_means N A kw [] [] [] _ _ _ Ep) as Ems. cbn [app] in Ems.
  assert (NoDup jm) as Hndm. { apply (means_distinct N A kw Honce). now rewrite <- Ems. }
  pose proof (same_names _ _ _ _ _ Hal Ejm) as Ejm'. 
  set (means := reduced_flags n jm).
  assert (List.length means = n) as Hlm by apply flags_length.
  assert (forall j, (j < n)%nat -> nth_error means j = Some true <-> asked N A "m" kw j) as Hmf. { intros j Hj. unfold means. rewrite flag_In by exact Hj. apply Hmean. }
  assert (forall j, asked N A "m" kw j -> (j < n)%nat) as Hlt. { intros j (kv & ax & _ & _ & (a & Ha & _) & _). apply nth_error_Some. fold A. congruence. }
  assert (exists z E0, (match ms with [] => Some y | _ => mean_names N env junk MAX y ms end) = Some z /\ var_axes z = dropped means (var_axes y) /\ responds env z E0 /\
    forall p, position (map zlen inds) p -> (jm = [] -> E0 (dropped means p) = D (gather inds p)) /\
      (jm <> [] -> mean_of W D (map (gather inds) (fibre means (map zlen inds) (dropped means p))) (E0 (dropped means p)))) as (z & E0 & Ez & Haz & Hrz & Hvz).
  { destruct ms as [|m0 ms'].
    - cbn in Ejm. injection Ejm as <-. exists y, (fun p => D (gather inds p)). split; [reflexivity|].
      assert (Forall (fun b => b = false) means) as Hno by (unfold means, reduced_flags; apply Forall_forall; intros b Hb; apply in_map_iff in Hb as (i & <- & _); reflexivity).
      split; [now rewrite dropped_none by (auto; lia)|]. split; [exact Hry|]. intros p Hp. split; [|congruence]. intros _. f_equal. f_equal. apply dropped_none; [|exact Hno].
      pose proof (Forall2_len _ _ _ Hp) as K. rewrite map_length in K. unfold n in Hlm. lia.
    - assert (jm <> []) as Hjne. { intros ->. apply sequence_Forall2 in Ejm. inversion Ejm. }
      assert (exists Wy, own_weights N (var_axes y) jm Wy /\ forall qs v, Forall (position (map zlen inds)) qs ->
        mean_of Wy (fun p => D (gather inds p)) qs v -> mean_of W D (map (gather inds) qs) v) as (Wy & HWy & Hconv).
      { assert (forall j a b l, nth_error A j = Some a -> nth_error (var_axes y) j = Some b -> nth_error inds j = Some l -> auxarray N b "weights" = option_map (fun ws => AxisModel.pick 0%Q ws l) (auxarray N a "weights")) as Hau.
        { intros j a b l Ha Hb Hl. exact (proj2 (HN a l b (Hnth j a b l Ha Hb Hl))). }
        destruct HW as [[-> Hnone]|(i & a & ws & Hi & Ha & Hws & -> & Hothers)].
        - exists None. split.
          + left. split; [reflexivity|]. intros j b Hj Hb. apply Hmean in Hj as Hj'. destruct (Hthree j (Hlt j Hj')) as (a & b' & l & Ha & Hb' & Hl). assert (b' = b) as -> by congruence.
            rewrite (Hau j a b l Ha Hb Hl), (Hnone j a Hj' Ha). reflexivity.
          + intros qs v _ K. cbn [mean_of] in *. rewrite map_map. exact K.
        - destruct (Hthree i (Hlt i Hi)) as (a' & b & l & Ha' & Hb & Hl). assert (a' = a) as -> by congruence.
          exists (Some (fun q => Fin (Q2Qc (nth (Z.to_nat (nth i q 0)) (AxisModel.pick 0%Q ws l) 0%Q)))). split.
          + right. exists i, b, (AxisModel.pick 0%Q ws l). split; [now apply Hmean|]. split; [exact Hb|]. split; [now rewrite (Hau i a b l Ha Hb Hl), Hws|]. split; [reflexivity|].
            intros j c Hj Hc Hne'. apply Hmean in Hj as Hj'. destruct (Hthree j (Hlt j Hj')) as (a2 & b' & l' & Ha2 & Hb' & Hl'). assert (b' = c) as -> by congruence.
            rewrite (Hau j a2 c l' Ha2 Hc Hl'), (Hothers j a2 Hj' Ha2 Hne'). reflexivity.
          + intros qs v Hqs K. cbn [mean_of] in *. rewrite map_map. rewrite (map_ext_in _ (fun q => (D (gather inds q), Fin (Q2Qc (nth (Z.to_nat (nth i q 0)) (AxisModel.pick 0%Q ws l) 0%Q))))); [exact K|].
            intros q Hq. f_equal. f_equal. f_equal. pose proof (proj1 (Forall_forall _ _) Hqs q Hq) as Hpos.
            assert (List.length q = List.length inds) as HLq. { pose proof (Forall2_len _ _ _ Hpos) as K2. rewrite map_length in K2. lia. }
            assert (i < List.length inds)%nat as Hi' by (apply nth_error_Some; congruence).
            rewrite (nth_gather junk inds q i HLq Hi'). rewrite (nth_error_nth _ _ _ Hl).
            assert (0 <= nth i q 0 < zlen l) as Hr.
            { destruct (nth_error q i) as [u|] eqn:Eu; [|apply nth_error_None in Eu; lia]. rewrite (nth_error_nth _ _ _ Eu). eapply (Forall2_nth_error _ _ _ i (zlen l) u Hpos); [|exact Eu]. rewrite nth_error_map, Hl. reflexivity. }
            unfold AxisModel.pick. rewrite (nth_indep (map (fun i0 => nth (Z.to_nat i0) ws 0%Q) l) 0%Q (nth (Z.to_nat 0) ws 0%Q)) by (rewrite map_length; unfold zlen in Hr; lia). rewrite (map_nth (fun i0 => nth (Z.to_nat i0) ws 0%Q)). reflexivity. }
      destruct (mean_names_spec N env Henv junk MAX HMAX y (fun p => D (gather inds p)) (m0 :: ms') jm Wy Hry Hgy Ejm' Hndm Hjne) as (z & E0 & Ez & Haz & Hrz & Hvz).
      { intros j b Hj Hb. apply Hmean in Hj as Hj'. destruct (Hthree j (Hlt j Hj')) as (a & b' & l & Ha & Hb' & Hl). assert (b' = b) as -> by congruence.
        rewrite (sliced_len a l b); [|eapply (proj1 (Forall_forall _ _) (proj2 Hx)), nth_error_In, Ha|exact (Hnth j a b l Ha Hb Hl)]. pose proof (Hne inds j l Hall Hj' Hl). destruct l; [congruence|unfold zlen; cbn; lia]. }
      { exact HWy. }
      rewrite HLy in Haz, Hvz. fold means in Haz, Hvz. rewrite Hsh in Hvz.
      exists z, E0. split; [exact Ez|]. split; [exact Haz|]. split; [exact Hrz|]. intros p Hp. split; [congruence|]. intros _.
      apply Hconv; [apply Forall_forall; intros q Hq; eapply fibre_position, Hq|]. apply Hvz.
      unfold var_shape. rewrite Haz, map_dropped. change (map axis_len (var_axes y)) with (var_shape y). rewrite Hsh. now apply dropped_pos. }
  assert (List.length (dropped means (var_axes y)) = List.length (dropped means means)) as HLd by (apply dropped_length; lia).
  assert (forall l j, nth_error inds j = Some l -> (j < n)%nat) as Hltl. { intros l j Hl. unfold n. rewrite <- Hlen. apply nth_error_Some. congruence. }
  destruct ss as [|s0 ss'].
  - cbn in Ejs. injection Ejs as <-. exists z, inds, (var_axes y), E0, means, means. rewrite Ez. cbn [bind].
    split; [reflexivity|]. split; [exact Hall|]. split; [exact Hsl|]. split; [exact HLy|]. split; [exact Hlm|]. split; [exact Hlm|]. split.
    { intros j l Hl. pose proof (Hmf j (Hltl l j Hl)) as K. split; [exact K|]. rewrite K. split; [now left|]. intros [H|[H _]]; [exact H|]. now apply Hsq in H. }
    split; [exact Haz|]. split; [exact Hrz|]. intros p Hp. destruct (Hvz p Hp) as [V1 V2]. split.
    + intros Hno. apply V1. destruct jm as [|j jm']; [reflexivity|]. exfalso. apply (Hno j). apply Hmean. now left.
    + intros j Hj. apply V2. intros ->. now apply Hmean in Hj.
  - assert (exists js', sequence (map (which_axis N (var_axes z)) (s0 :: ss')) = Some js' /\ forall j, In j js' <-> exists i, In i js /\ j = rank means i) as (js' & Ejs' & Hjs').
    { assert (forall ns l, (forall ax, In ax ns -> In ax (s0 :: ss')) -> sequence (map (which_axis N A) ns) = Some l -> sequence (map (which_axis N (var_axes z)) ns) = Some (map (rank means) l)) as Hgen.
      { induction ns as [|ax ns IH]; intros l Hsub El; cbn [map sequence] in El |- *; [injection El as <-; reflexivity|].
        destruct (which_axis N A ax) as [j|] eqn:Ew; [|discriminate]. destruct (sequence (map (which_axis N A) ns)) as [l'|] eqn:El'; [|discriminate]. injection El as <-.
        apply which_axis_spec in Ew. assert (asked N A "s" kw j) as Hasked. { apply Hsq. apply Hjs. exists ax. split; [apply Hsub; now left|exact Ew]. }
        assert (nth_error means j = Some false) as Ei.
        { assert (j < n)%nat as Hj. { destruct Ew as [(a & Ha & _) _]. apply nth_error_Some. fold A. congruence. }
          destruct (nth_error means j) as [[]|] eqn:E3; [|reflexivity|apply nth_error_None in E3; lia]. exfalso. apply (Hdis j); [|exact Hasked]. apply Hmf; auto. }
        assert (which_axis N (var_axes z) ax = Some (rank means j)) as ->.
        { apply which_axis_spec. rewrite Haz. apply first_axis_dropped; [|exact Ei]. eapply first_axis_ext; eauto. }
        rewrite (IH l' (fun b Hb => Hsub b (or_intror Hb)) eq_refl). reflexivity. }
      exists (map (rank means) js). split; [apply Hgen; auto|]. intros j. rewrite in_map_iff. split; intros (i & H1 & H2); eauto. }
    assert (js' <> []) as Hne'. { intros ->. apply sequence_Forall2 in Ejs'. inversion Ejs'. }
    destruct (squeeze_responds env junk z E0 js' Hrz) as (g2 & E2 & Hl2 & Hg2 & Hay & Hry2 & Hv2).
    set (w := squeeze_var env junk z js') in *.
    assert (List.length g2 = List.length (dropped means (var_axes y))) as Hl2' by (rewrite Hl2, Haz; reflexivity).
    exists w, inds, (var_axes y), E2, means, (merge means g2). rewrite Ez. cbn [bind]. unfold squeeze_names. rewrite Ejs'. cbn [bind].
    split; [reflexivity|]. split; [exact Hall|]. split; [exact Hsl|]. split; [exact HLy|]. split; [exact Hlm|]. split; [rewrite length_merge; exact Hlm|]. split.
    { intros j l Hl. pose proof (Hltl l j Hl) as Hj. pose proof (Hmf j Hj) as K. split; [exact K|].
      rewrite nth_merge by (rewrite Hl2'; exact HLd). rewrite K. 
      destruct (nth_error means j) as [[]|] eqn:Ej; [| |apply nth_error_None in Ej; lia].
      - split; [intros [H|[H _]]; [now left|discriminate]|]. intros _. left. now apply K.
      - destruct (Hthree j Hj) as (a & b & l' & Ha & Hb & Hl'). assert (l' = l) as -> by congruence.
        assert (nth_error (var_axes z) (rank means j) = Some b) as Hzb by (rewrite Haz, dropped_nth; auto).
        rewrite (Hg2 _ b Hzb). rewrite (sliced_len a l b); [|eapply (proj1 (Forall_forall _ _) (proj2 Hx)), nth_error_In, Ha|exact (Hnth j a b l Ha Hb Hl)].
        split; [|intros [H|[H1 H2]]; [now left|right; split; [reflexivity|]]].
        + intros [H|[_ [[H|H] H2]]]; [now left|contradiction|]. right. split; [|exact H2]. apply Hjs' in H as (i & Hi & Er). apply Hsq in Hi as Hi'.
          assert (nth_error means i = Some false) as Ei.
          { assert (i < n)%nat as Hin. { destruct Hi' as (kv & ax & _ & _ & (a' & Ha' & _) & _). apply nth_error_Some. fold A. congruence. }
            destruct (nth_error means i) as [[]|] eqn:E3; [|reflexivity|apply nth_error_None in E3; lia]. exfalso. apply (Hdis i); [|exact Hi']. apply Hmf; auto. }
          rewrite (rank_inj means j i Ej Ei Er). exact Hi'.
        + split; [|exact H2]. right. apply Hjs'. exists j. split; [now apply Hsq|reflexivity]. }
    split; [rewrite Hay, Haz; apply dropped_merge; [lia|exact Hl2']|]. split; [exact Hry2|]. intros p Hp.
    assert (List.length p = n) as HLp. { pose proof (Forall2_len _ _ _ Hp) as K. rewrite map_length in K. unfold n. lia. }
    rewrite <- (dropped_merge means g2 p); [|lia|rewrite Hl2'; apply (eq_trans HLd); symmetry; apply dropped_length; lia].
    rewrite Hv2.
    + destruct (Hvz p Hp) as [V1 V2]. split.
      * intros Hno. apply V1. destruct jm as [|j jm']; [reflexivity|]. exfalso. apply (Hno j). apply Hmean. now left.
      * intros j Hj. apply V2. intros ->. now apply Hmean in Hj.
    + unfold var_shape. rewrite Haz, map_dropped. change (map axis_len (var_axes y)) with (var_shape y). rewrite Hsh. now apply dropped_pos.
Qed.
End Whole.
