(** Lemmas for data and their climatologies: reading a variable whose time axis has fewer fields through a view of the full time axis. *)
From Coq Require Import ZArith List Bool Lia ZifyBool Permutation QArith_base Qcanon.
From Verif Require Import CalModel CalSpec TimeSearchModel TimeSearchSpec TimeSearchProofs TimeMapProofs TimeDateProofs SortSpec IndexModel IndexSpec IndexProofs ArrModel ArrProofs
  ViewModel ViewSpec ViewProofs AxisModel AxisSpec AxisProofs VarOpsModel VarOpsSpec VarOpsProofs NumModel NumProofs ReduceModel ReduceSpec StencilModel StencilSpec StencilProofs
  RespondProofs LoopProofs ConcatProofs UfuncModel UfuncSpec UfuncProofs UfuncView ClimModel ClimSpec ClimSum ClimAxis ClimChunk ClimView AnomModel AnomSpec.
Import ListNotations.
Open Scope Z_scope.
Notation zlen := IndexSpec.zlen.
Notation znth := ArrModel.znth.

Lemma Forall2_In_left {A B} (R : A -> B -> Prop) l m x : Forall2 R l m -> In x l -> exists y, In y m /\ R x y.
Proof. induction 1 as [|a b l m H _ IH]; intros K; [destruct K|]. destruct K as [->|K]; [exists b; split; [now left|exact H]|]. destruct (IH K) as (y & Hy & Hr). exists y. split; [now right|exact Hr]. Qed.
Lemma mapped_hits mine theirs ind : TimeSearchSpec.mapped mine theirs ind -> (forall r, In r theirs -> In r mine) -> Forall2 (fun i r => at_ mine i r) ind theirs.
Proof.
  induction 1 as [|r i theirs ind H _ IH|r theirs ind H _ IH]; intros K.
  - constructor.
  - constructor; [exact H|]. apply IH. intros s Hs. apply K. now right.
  - exfalso. apply H, K. now left.
Qed.
Lemma hits_unique (mine theirs : list (list Z)) (ind ind' : list Z) : NoDup mine -> Forall2 (fun i r => at_ mine i r) ind theirs -> Forall2 (fun i r => at_ mine i r) ind' theirs -> ind = ind'.
Proof.
  intros Hnd H. revert ind'. induction H as [|i r ind theirs H _ IH]; intros ind' H'; inversion H'; subst; [reflexivity|].
  f_equal; [|now apply IH]. eapply NoDup_at; eassumption.
Qed.
Lemma Forall2_maps {A B C} (R : B -> C -> Prop) (f : A -> B) (g : A -> C) l : (forall x, In x l -> R (f x) (g x)) -> Forall2 R (map f l) (map g l).
Proof. induction l as [|x l IH]; intros H; constructor; [apply H; now left|apply IH; intros y Hy; apply H; now right]. Qed.
Lemma mask_eqb_spec j k : mask_eqb j k = true <-> j = k.
Proof. destruct j as [[] [] [] [] [] []], k as [[] [] [] [] [] []]; split; intros H; try reflexivity; discriminate. Qed.
Lemma mask_sub_eq j k : mask_sub j k = true -> mask_sub k j = true -> j = k.
Proof. destruct j as [[] [] [] [] [] []], k as [[] [] [] [] [] []]; cbn; intros; reflexivity || discriminate. Qed.

(** *** the axis [a] seen from element [i] of the axes [B]: as for other axes, or a time axis with fewer fields *)
Definition coarser (u t : taxis) (ind : list Z) : Prop :=
  good_axis (Time u) /\ good_axis (Time t) /\ t_class u = t_class t /\ mask_sub (t_mask u) (t_mask t) = true /\ t_mask u <> t_mask t /\
  Forall2 (fun i r => at_ (records (t_mask u) u) i r) ind (records (t_mask u) t).
Definition related (B : list axis) (a : axis) (ii : nat * list Z) : Prop :=
  derived B a ii \/
  exists u t, a = Time u /\ nth_error B (fst ii) = Some (Time t) /\ coarser u t (snd ii) /\ forall i' b', i' <> fst ii -> nth_error B i' = Some b' -> unrelated a b'.

Lemma coarser_len u t ind : coarser u t ind -> zlen ind = zlen (t_dates t).
Proof. intros (_ & _ & _ & _ & _ & H). apply Forall2_len in H. unfold zlen. rewrite H. unfold records. now rewrite map_length. Qed.
Lemma coarser_range u t ind : coarser u t ind -> in_range (axis_len (Time u)) ind.
Proof.
  intros (Gu & _ & _ & _ & _ & H). apply Forall_forall. intros i Hi. apply (Forall2_In_left _ _ _ _ H) in Hi as (r & _ & Hr). apply at_lt in Hr.
  unfold TimeSearchModel.zlen, records in Hr. rewrite map_length in Hr. pose proof (time_length u Gu). cbn [axis_len]. unfold zlen. lia.
Qed.
Lemma coarser_record u t ind i : coarser u t ind -> 0 <= i < zlen (t_dates t) -> record_of (t_mask u) u (znth ind i) = record_of (t_mask u) t i.
Proof.
  intros H Hi. pose proof (coarser_len u t ind H) as HL. destruct H as (_ & _ & _ & _ & _ & H).
  assert (nth_error ind (Z.to_nat i) = Some (znth ind i)) as E1 by (unfold znth; apply nth_error_nth'; unfold zlen in *; lia).
  assert (nth_error (records (t_mask u) t) (Z.to_nat i) = Some (record_of (t_mask u) t i)) as E2.
  { unfold record_of. apply nth_error_nth'. unfold records. rewrite map_length. unfold zlen in *. lia. }
  pose proof (Forall2_nth_error _ _ _ _ _ _ H E1 E2) as K. cbv beta in K. apply record_at in K as [_ K]. now symmetry.
Qed.
Lemma time_len t : good_axis (Time t) -> axis_len (Time t) = zlen (t_dates t).
Proof. intros G. pose proof (time_length t G). cbn [axis_len]. unfold zlen. lia. Qed.


Lemma related_index B a ii : related B a ii -> (fst ii < length B)%nat.
Proof. intros [(_ & b & Hb & _)|(u & t & _ & Hb & _)]; apply nth_error_Some; congruence. Qed.

Section Get.
Context {V : Type} (env : axenv) (Henv : env_ok env) (junk : list Z -> V).
Notation ops := (axis_ops env).
Notation get := (ViewModel.get ops junk).

Lemma coarser_exists u t : good_axis (Time u) -> good_axis (Time t) -> t_class u = t_class t -> mask_sub (t_mask u) (t_mask t) = true -> t_mask u <> t_mask t ->
  (forall r, In r (records (t_mask u) t) -> In r (records (t_mask u) u)) -> exists ind, coarser u t ind /\ axis_map_to env (Time u) (Time t) = Some ind.
Proof.
  intros Gu Gt Hc Hs Hne Hr. destruct (time_axis_map_to env Henv u t Gu Hc Hs) as (ind & E & M). exists ind. split; [|exact E].
  repeat (split; [assumption|]). exact (mapped_hits _ _ _ M Hr).
Qed.
Lemma coarser_take u t ind l : coarser u t ind -> in_range (axis_len (Time t)) l -> axis_map_to env (Time u) (axis_take env (Time t) l) = Some (map (znth ind) l).
Proof.
  intros H Hl. pose proof H as (Gu & Gt & Hc & Hs & Hne & HF). pose proof (sliced_self env Henv (Time t) l Gt Hl) as Hsl.
  destruct (axis_take env (Time t) l) as [c|n|t'] eqn:Et; try (exfalso; exact Hsl). destruct Hsl as (S1 & S2 & S3 & S4 & S5 & S6 & S7).
  destruct (time_axis_map_to env Henv u t' Gu) as (ind' & E & M); [congruence|now rewrite S5|]. rewrite E. f_equal.
  assert (in_range (zlen (t_dates t)) l) as Hl' by (rewrite <- time_len by exact Gt; exact Hl).
  assert (map (project (t_mask u)) (t_dates t') = map (record_of (t_mask u) t) l) as Er.
  { rewrite S6. unfold pick. rewrite map_map. apply map_ext_in. intros i Hi. unfold record_of, records.
    pose proof (proj1 (Forall_forall _ _) Hl' i Hi) as B. cbv beta in B. unfold zlen in B.
    rewrite (nth_indep _ [] (project (t_mask u) date0)) by (rewrite map_length; lia). now rewrite map_nth. }
  rewrite Er in M.
  assert (Forall2 (fun i r => at_ (records (t_mask u) u) i r) (map (znth ind) l) (map (record_of (t_mask u) t) l)) as HF'.
  { apply Forall2_maps. intros i Hi. apply (proj1 (Forall_forall _ _) Hl') in Hi. cbv beta in Hi.
    pose proof (coarser_range _ _ _ H) as Hr. apply record_at. split; [|symmetry; now apply (coarser_record u t ind)].
    rewrite <- time_len by apply H. apply (proj1 (Forall_forall _ _) Hr). unfold znth. apply nth_In. pose proof (coarser_len _ _ _ H). unfold zlen in *. lia. }
  apply (hits_unique (records (t_mask u) u) (map (record_of (t_mask u) t) l)); [apply Gu| |exact HF'].
  apply mapped_hits; [exact M|]. intros r Hr. apply in_map_iff in Hr as (i & <- & Hi).
  assert (In (record_of (t_mask u) t i) (records (t_mask u) t)) as Hin.
  { unfold record_of. apply nth_In. unfold records. rewrite map_length. pose proof (proj1 (Forall_forall _ _) Hl' i Hi) as B. cbv beta in B. unfold zlen in B. lia. }
  apply (Forall2_In_r _ _ _ _ HF) in Hin as (j & _ & Hj). apply at_in. eauto.
Qed.

Lemma related_mapped B L a i ind l : Forall2 (fun b l => in_range (axis_len b) l) B L ->
  related B a (i, ind) -> nth_error L i = Some l -> ViewProofs.mapped ops (view_of_inds B L) a (i, map (znth ind) l).
Proof.
  intros HBL [Hd|(u & t & -> & Hb & Hco & Hun)] Hl; [now apply (derived_mapped env Henv junk)|]. cbn [fst snd] in *.
  pose proof (Forall2_len _ _ _ HBL) as HL. pose proof (Forall2_nth_error _ _ _ _ _ _ HBL Hb Hl) as Hbl. cbv beta in Hbl.
  pose proof Hco as (Gu & Gt & Hc & Hs & Hne & HF).
  assert (in_range (axis_len (Time u)) (map (znth ind) l)) as Hr'.
  { apply in_range_map_znth; [exact (coarser_range _ _ _ Hco)|]. now rewrite (coarser_len _ _ _ Hco), <- (time_len t Gt). }
  unfold ViewProofs.mapped. cbn [fst snd vaxes vinds view_of_inds].
  assert (i < length B)%nat as Hi by (apply nth_error_Some; congruence).
  split; [|split; [exact Hr'|split; [exact Hi|]]].
  2:{ rewrite (nth_error_nth _ _ _ Hl), zlen_map. reflexivity. }
  unfold map_axis. cbn [vaxes].
  rewrite find_first_none.
  2:{ intros b' Hb'. change (In b' B) in Hb'. apply In_nth_error in Hb' as [j Hj]. cbn [same axis_ops]. destruct (Nat.eq_dec j i) as [->|Hnj].
      - rewrite Hb in Hj. injection Hj as <-. cbn [axis_same]. unfold time_eq. destruct (mask_eqb (t_mask u) (t_mask t)) eqn:Em; [apply mask_eqb_spec in Em; contradiction|].
        now rewrite andb_false_r.
      - rewrite unrelated_same; [reflexivity|]. now apply (Hun j b'). }
  rewrite (subaxes_eq env) by exact HBL.
  rewrite (proj2 (find_first_spec _ _ i (map (znth ind) l))).
  - eexists. split; [reflexivity|]. apply expand_simplify. eapply (in_range_nonneg junk), Hr'.
  - split.
    + exists (axis_take env (Time t) l). split.
      * rewrite nth_error_map, nth_error_combine, Hb, Hl. reflexivity.
      * cbn [mapto axis_ops]. exact (coarser_take u t ind l Hco Hbl).
    + intros j b' Hj Hb'. rewrite nth_error_map, nth_error_combine in Hb'.
      destruct (nth_error B j) as [c|] eqn:Ec; [|discriminate]. destruct (nth_error L j); [|discriminate]. cbn in Hb'. injection Hb' as <-.
      cbn [mapto axis_ops]. apply unrelated_map, (take_unrelated env). apply (Hun j c); [lia|exact Ec].
Qed.

Lemma get_related_fetch B L (x : var axis V) D js :
  (let mm := map (fun '(i, ind) => map (znth ind) (nth i L [])) js in
   exists r, fetch junk x (view_of_inds (var_axes x) mm) = Some r /\ array_is r (map zlen mm) (fun p => D (gather mm p))) ->
  Forall2 (fun b l => l <> [] /\ in_range (axis_len b) l) B L ->
  Forall2 (related B) (var_axes x) js -> NoDup (map fst js) ->
  exists r, get (view_of_inds B L) x true true = Some r /\
    array_is r (outshape (map zlen L) (map fst js)) (fun p => derived_data D js (gather L p)).
Proof.
  intros Hx HBL Hjs Hnd.
  pose proof (Forall2_len _ _ _ HBL) as HL.
  assert (forall i ind, In (i, ind) js -> (i < length B)%nat) as Hib.
  { intros i ind Hin. apply (Forall2_In_r _ _ _ _ Hjs) in Hin as (a & _ & Hr). exact (related_index _ _ _ Hr). }
  destruct (get_fetch ops junk B L x D (map (fun '(i, ind) => (i, map (znth ind) (nth i L []))) js)) as (r & Hget & Hsh & Hval).
  - now symmetry.
  - rewrite !map_map. cbn zeta in Hx.
    assert (forall (T : Type) (f : list Z -> T), map (fun x => f (snd (let '(i, ind) := x in (i, map (znth ind) (nth i L []))))) js = map f (map (fun '(i, ind) => map (znth ind) (nth i L [])) js)) as E.
    { intros T f. rewrite map_map. apply map_ext. now intros [i ind]. }
    rewrite (E _ zlen), (E _ (fun l => l)), map_id. exact Hx.
  - apply Forall2_map_r. apply Forall2_intro_nth; [eapply Forall2_len, Hjs|]. intros k a [i ind] Ha Hj.
    pose proof (Forall2_nth_error _ _ _ _ _ _ Hjs Ha Hj) as Hr. apply related_mapped; [|exact Hr|].
    + eapply Forall2_impl; [|exact HBL]. cbn. tauto.
    + apply nth_error_nth'. rewrite <- HL. exact (related_index _ _ _ Hr).
  - rewrite map_map. erewrite map_ext; [exact Hnd|]. now intros [i ind].
  - apply Forall_forall. intros m Hm. apply in_map_iff in Hm as ([i m'] & <- & Hm). apply in_map_iff in Hm as ([i' ind] & E & Hin).
    injection E as <- <-. cbn. pose proof (Hib _ _ Hin).
    assert (nth i' L [] <> []) as Hne.
    { assert (In (nth i' L []) L) as Hin' by (apply nth_In; lia). apply (Forall2_In_r _ _ _ _ HBL) in Hin' as (b & _ & Hn & _). exact Hn. }
    destruct (nth i' L []); [congruence|discriminate].
  - exists r. split; [exact Hget|].
    assert (map fst (map (fun '(i, ind) => (i, map (znth ind) (nth i L []))) js) = map fst js) as Hf.
    { rewrite map_map. apply map_ext. now intros [i ind]. }
    rewrite Hf in *. split; [exact Hsh|]. intros p Hp. rewrite (Hval p Hp). unfold derived_data. f_equal.
    pose proof (Forall2_len _ _ _ Hp) as Hpl. rewrite (length_outshape junk), map_length in Hpl.
    assert (forall i ind, In (i, ind) js -> 0 <= nth i p 0 < zlen (nth i L [])) as Hpos.
    { intros i ind Hin. eapply position_nth; [exact Hp|]. unfold outshape. rewrite nth_error_map, nth_error_combine, nth_error_seq.
      pose proof (Hib _ _ Hin). rewrite map_length, <- HL. destruct (Nat.ltb_spec i (length B)); [|lia]. rewrite nth_error_map.
      rewrite (nth_error_nth' L []) by lia. cbn.
      assert (existsb (Nat.eqb i) (map fst js) = true) as -> by (apply existsb_In, in_map_iff; exists (i, ind); auto). reflexivity. }
    clear -V env Henv junk Hpos Hpl Hib HL. induction js as [|[i ind] js IH]; [reflexivity|]. cbn [map gather fst snd]. f_equal.
    + rewrite (nth_gather junk); [|lia|rewrite <- HL; eapply Hib; now left].
      specialize (Hpos i ind (or_introl eq_refl)). unfold znth at 1.
      rewrite (nth_indep _ 0 (znth ind 0)) by (rewrite map_length; unfold zlen in Hpos; lia). rewrite map_nth. reflexivity.
    + apply IH.
      * intros i' ind' Hin. eapply Hib. right. exact Hin.
      * intros i' ind' Hin. eapply Hpos. right. exact Hin.
Qed.

Lemma related_parts B L (x : var axis V) js (P : list Z -> Prop) : Forall2 (fun b l => l <> [] /\ in_range (axis_len b) l) B L ->
  Forall2 (related B) (var_axes x) js -> Forall (fun '(i, ind) => P (map (znth ind) (nth i L []))) js ->
  Forall2 (fun a l => in_range (axis_len a) l /\ l <> [] /\ P l) (var_axes x) (map (fun '(i, ind) => map (znth ind) (nth i L [])) js).
Proof.
  intros HBL Hjs HP. pose proof (Forall2_len _ _ _ HBL) as HL.
  apply Forall2_map_r. apply Forall2_intro_nth; [eapply Forall2_len, Hjs|]. intros k a [i ind] Ha Hj.
  pose proof (Forall2_nth_error _ _ _ _ _ _ Hjs Ha Hj) as Hr. pose proof (related_index _ _ _ Hr) as Hi. cbn [fst] in Hi.
  assert (nth_error L i = Some (nth i L [])) as El by (apply nth_error_nth'; lia).
  destruct (nth_error B i) as [b|] eqn:Eb; [|apply nth_error_None in Eb; lia].
  destruct (Forall2_nth_error _ _ _ _ _ _ HBL Eb El) as [Hne Hrl].
  assert (ViewProofs.mapped ops (view_of_inds B L) a (i, map (znth ind) (nth i L []))) as (_ & H & _).
  { apply related_mapped; [|exact Hr|exact El]. eapply Forall2_impl; [|exact HBL]. cbn. tauto. }
  split; [exact H|]. split; [intros E; apply map_eq_nil in E; contradiction|]. exact (proj1 (Forall_forall _ _) HP (i, ind) (nth_error_In _ _ Hj)).
Qed.
(** a variable that answers requests without repetitions: not one and the same element again and again *)
Lemma get_related_any B L (x : var axis V) D js : responds env x D ->
  Forall2 (fun b l => l <> [] /\ in_range (axis_len b) l) B L ->
  Forall2 (related B) (var_axes x) js -> NoDup (map fst js) ->
  Forall (fun '(i, ind) => various (map (znth ind) (nth i L []))) js ->
  exists r, get (view_of_inds B L) x true true = Some r /\
    array_is r (outshape (map zlen L) (map fst js)) (fun p => derived_data D js (gather L p)).
Proof.
  intros Hx HBL Hjs Hnd HP. apply get_related_fetch; auto. cbv zeta. apply (fetch_any env junk); [exact Hx|].
  eapply Forall2_impl; [|exact (related_parts B L x js various HBL Hjs HP)]. intros a l (H1 & _ & H2). now split.
Qed.
(** a variable in memory *)
Lemma get_related B L (x : var axis V) D js : getable env x D ->
  Forall2 (fun b l => l <> [] /\ in_range (axis_len b) l) B L ->
  Forall2 (related B) (var_axes x) js -> NoDup (map fst js) ->
  exists r, get (view_of_inds B L) x true true = Some r /\
    array_is r (outshape (map zlen L) (map fst js)) (fun p => derived_data D js (gather L p)).
Proof.
  intros [Hx Hsep] HBL Hjs Hnd. apply get_related_fetch; auto. cbv zeta. apply (fetch_spec ops junk); [exact Hx|].
  eapply Forall2_impl; [|exact (related_parts B L x js (fun _ => True) HBL Hjs ltac:(apply Forall_forall; intros [i ind] _; exact Logic.I))].
  intros a l (H1 & H2 & _). now split.
Qed.
End Get.

(** *** the axes of a variable and those of a climatology of it *)
Lemma nth_set_at {X} (l : list X) i (x d : X) : (i < length l)%nat -> nth i (set_at l i x) d = x.
Proof. revert i. induction l as [|a l IH]; intros [|i] H; cbn in *; try lia; [reflexivity|]. apply IH. lia. Qed.
Lemma map_set_at {X Y} (f : X -> Y) l i x : map f (set_at l i x) = set_at (map f l) i (f x).
Proof. revert i. induction l as [|a l IH]; intros [|i]; cbn; try reflexivity. f_equal. apply IH. Qed.
Lemma set_at_length {X} (l : list X) i x : length (set_at l i x) = length l.
Proof. revert i. induction l as [|a l IH]; intros [|i]; cbn; auto. Qed.
Lemma nth_error_set_at {X} (l : list X) i j x : (i < length l)%nat -> nth_error (set_at l i x) j = if Nat.eqb i j then Some x else nth_error l j.
Proof. revert i j. induction l as [|a l IH]; intros [|i] [|j] H; cbn in *; try lia; try reflexivity. apply IH. lia. Qed.

Lemma skipn_cons {X} k (l : list X) a r : a :: r = skipn k l -> nth_error l k = Some a /\ r = skipn (S k) l.
Proof. revert k. induction l as [|b l IH]; intros [|k] E; cbn in *; try discriminate; [injection E as -> ->; auto|]. now apply IH. Qed.
Section Axes.
Context (A : list axis) (Hsep : separate A) (Hgood : Forall good_axis A) (ti : nat) (t : taxis) (Ht : nth_error A ti = Some (Time t))
        (Honly : forall i s, nth_error A i = Some (Time s) -> i = ti) (u : taxis) (gm : list Z) (Hco : coarser u t gm).
Definition clim_axes : list axis := set_at A ti (Time u).
Definition clim_inds : list (list Z) := set_at (map (fun a => arange 0 (axis_len a) 1) A) ti gm.
Definition clim_js : list (nat * list Z) := combine (seq 0 (length A)) clim_inds.

Lemma ti_lt : (ti < length A)%nat.
Proof. apply nth_error_Some. congruence. Qed.
Lemma clim_inds_length : length clim_inds = length A.
Proof. unfold clim_inds. now rewrite set_at_length, map_length. Qed.
Lemma unrelated_u j b : j <> ti -> nth_error A j = Some b -> unrelated (Time u) b /\ unrelated b (Time u).
Proof.
  intros Hj Hb. assert (match b with Time _ => False | _ => True end) as Hn by (destruct b as [| |s]; auto; apply Honly in Hb; contradiction).
  split; [destruct b; auto; destruct Hn|]. destruct Hco as (_ & _ & Hc & _). apply (unrelated_time t u); [exact Hn|exact Hc|]. exact (Hsep j ti b (Time t) Hb Ht Hj).
Qed.
Lemma clim_related : Forall2 (related A) clim_axes clim_js.
Proof.
  pose proof ti_lt as Hlt. apply Forall2_intro_nth.
  { unfold clim_js, clim_axes. now rewrite combine_length, seq_length, set_at_length, clim_inds_length, Nat.min_id. }
  intros i a [j ind] Ha Hj. unfold clim_axes in Ha. unfold clim_js, clim_inds in Hj.
  rewrite nth_error_combine, nth_error_seq, nth_error_set_at in Hj by (rewrite map_length; exact Hlt). rewrite nth_error_set_at in Ha by exact Hlt.
  destruct (Nat.ltb_spec i (length A)) as [Hi|]; [|discriminate]. destruct (Nat.eqb_spec ti i) as [<-|Hne].
  - injection Ha as <-. cbn in Hj. injection Hj as <- <-. right. exists u, t. split; [reflexivity|]. split; [exact Ht|]. split; [exact Hco|].
    intros i' b' H1 H2. now apply (unrelated_u i' b').
  - rewrite nth_error_map, Ha in Hj. cbn in Hj. injection Hj as <- <-. left. split; [apply range_arange|]. exists a. split; [exact Ha|]. split; [right; auto|].
    intros i' b' H1 H2. exact (Hsep i i' a b' Ha H2 (not_eq_sym H1)).
Qed.
Lemma clim_fst : map fst clim_js = seq 0 (length A).
Proof. unfold clim_js. apply map_fst_combine. now rewrite seq_length, clim_inds_length. Qed.
Lemma clim_NoDup : NoDup (map fst clim_js).
Proof. rewrite clim_fst. apply seq_NoDup. Qed.
Lemma clim_position (q : list Z) : position (map axis_len A) q ->
  map (fun '(i, ind) => znth ind (nth i q 0)) clim_js = set_at q ti (znth gm (nth ti q 0)).
Proof.
  intros Hq. pose proof (Forall2_len _ _ _ Hq) as HL. rewrite map_length in HL. pose proof ti_lt as Hlt.
  apply nth_error_ext'. intros i. unfold clim_js, clim_inds. rewrite nth_error_map, nth_error_combine, nth_error_seq, !nth_error_set_at by (rewrite ?map_length; lia).
  destruct (Nat.ltb_spec i (length A)) as [Hi|Hi].
  - destruct (Nat.eqb_spec ti i) as [<-|Hne]; [reflexivity|]. rewrite nth_error_map. destruct (nth_error A i) as [a|] eqn:Ea; [|apply nth_error_None in Ea; lia]. cbn [option_map].
    rewrite (nth_error_nth' q 0) by lia. cbn. f_equal.
    assert (0 <= nth i q 0 < axis_len a) as B.
    { apply (position_nth (map axis_len A) q i (axis_len a) Hq). rewrite nth_error_map, Ea. reflexivity. }
    rewrite znth_arange1 by lia. lia.
  - assert (nth_error q i = None) as -> by (apply nth_error_None; lia). destruct (Nat.eqb_spec ti i); [lia|reflexivity].
Qed.

(** the indices asked of the climatology: all sorts of them if the times asked for are of several groups *)
Lemma clim_various L : Forall2 selection A L -> various (map (znth gm) (nth ti L [])) -> Forall (fun '(i, ind) => various (map (znth ind) (nth i L []))) clim_js.
Proof.
  intros HL Hv. pose proof ti_lt as Hlt. pose proof (Forall2_len _ _ _ HL) as Hlen. apply Forall_forall. intros [i ind] Hj. apply In_nth_error in Hj as [k Hk]. unfold clim_js, clim_inds in Hk.
  rewrite nth_error_combine, nth_error_seq, nth_error_set_at in Hk by (rewrite map_length; exact Hlt).
  destruct (Nat.ltb_spec k (length A)) as [Hi|]; [|discriminate]. destruct (Nat.eqb_spec ti k) as [Ek|Hne].
  - cbn in Hk. injection Hk as <- <-. rewrite <- Ek. exact Hv.
  - rewrite nth_error_map in Hk. destruct (nth_error A k) as [a|] eqn:Ea; [|discriminate]. cbn in Hk. injection Hk as <- <-.
    assert (nth_error L k = Some (nth k L [])) as El by (apply nth_error_nth'; lia).
    pose proof (Forall2_nth_error _ _ _ _ _ _ HL Ea El) as (H1 & H2 & H3). rewrite arange_znth by exact H2. now apply increasing_various.
Qed.
Lemma mixed_various l : in_range (zlen (t_dates t)) l -> mixed (t_mask u) t l -> various (map (znth gm) l).
Proof.
  intros Hl [H|(i & j & Hi & Hj & Hne)]; [left; now rewrite zlen_map|]. right. exists (znth gm i), (znth gm j).
  split; [now apply in_map|]. split; [now apply in_map|]. intros E. apply Hne.
  rewrite <- (coarser_record u t gm i Hco), <- (coarser_record u t gm j Hco) by (apply (proj1 (Forall_forall _ _) Hl); assumption). now rewrite E.
Qed.

Section Merge.
Context (env : axenv) (Henv : env_ok env) (Htight : Forall tight_axis A) (Hmap : axis_map_to env (Time u) (Time t) = Some gm).
Lemma can_map_u : can_map env (Time u) (Time t) = Some (Some (Time t)).
Proof.
  pose proof Hco as (Gu & Gt & Hc & Hs & Hne & _). unfold can_map. cbn [axis_class]. rewrite Hc.
  assert (prefix (t_class t) (t_class t) = true) as -> by apply class_eqb_prefix, class_eqb_refl.
  unfold can_map_pc. cbn [axis_eq axis_same explicit_class].
  assert (time_eq u t = false) as ->.
  { unfold time_eq. destruct (mask_eqb (t_mask u) (t_mask t)) eqn:Em; [apply mask_eqb_spec in Em; contradiction|]. now rewrite andb_false_r. }
  rewrite Hmap. cbn [axis_map_to]. unfold time_map.
  assert (mask_sub (t_mask t) (t_mask u) = false) as ->.
  { destruct (mask_sub (t_mask t) (t_mask u)) eqn:E; [|reflexivity]. exfalso. apply Hne. now apply mask_sub_eq. }
  rewrite andb_false_r. rewrite (coarser_len _ _ _ Hco), <- (time_len t Gt), Z.eqb_refl. reflexivity.
Qed.
Lemma merge_u_from : forall l k, l = skipn k A -> (k <= ti)%nat -> merge_axis env (Time u) l = Some l.
Proof.
  induction l as [|a l IH]; intros k E Hk.
  - exfalso. pose proof ti_lt. apply (f_equal (@length _)) in E. rewrite skipn_length in E. cbn in E. lia.
  - apply skipn_cons in E as [Ha El].
    cbn [merge_axis]. destruct (Nat.eq_dec k ti) as [->|Hne].
    + rewrite Ht in Ha. injection Ha as <-. now rewrite can_map_u.
    + destruct (unrelated_u k a Hne Ha) as [U1 U2]. rewrite (can_map_unrelated env (Time u) a U1 U2). rewrite (IH (S k) El) by lia. reflexivity.
Qed.
Lemma merge_clim : forall l, incl l (Time u :: A) -> merge_axes env l A = Some A.
Proof.
  induction l as [|a l IH]; intros Hi; [reflexivity|]. cbn [merge_axes].
  assert (merge_axis env a A = Some A) as ->.
  { destruct (Hi a (or_introl eq_refl)) as [<-|Ha]; [exact (merge_u_from A 0%nat eq_refl ltac:(lia))|].
    apply (merge_own env Henv A Htight a A); [intros b Hb; exact Hb|exact Ha|exact Hsep]. }
  apply IH. intros b Hb. apply Hi. now right.
Qed.
Lemma combine_clim : combine_axes env [A; clim_axes] = Some A.
Proof.
  unfold combine_axes. cbn [concat]. rewrite app_nil_r, merge_axes_app.
  rewrite (merge_first env A []) by exact Hsep. cbn [app].
  rewrite merge_clim.
  2:{ intros b Hb. unfold clim_axes in Hb. apply In_nth_error in Hb as [i Hb]. rewrite nth_error_set_at in Hb by exact ti_lt.
      destruct (Nat.eqb ti i); [injection Hb as <-; now left|right; eapply nth_error_In, Hb]. }
  cbn [filter].
  assert (forallb (fun outa => existsb (fun a => axis_same a outa) A) A = true) as ->; [|reflexivity].
  apply forallb_forall. intros a Ha. apply existsb_exists. exists a. split; [exact Ha|apply same_refl].
Qed.
End Merge.
End Axes.

(** *** element-wise operations on two arrays of the same shape *)
Lemma own_place s p : position s p -> map (fun '(m, x) => if m =? 1 then 0 else x) (combine s p) = p.
Proof. induction 1 as [|n i s p H _ IH]; [reflexivity|]. cbn [combine map]. f_equal; [|exact IH]. destruct (Z.eqb_spec n 1); lia. Qed.
Lemma full_value {V} s (E : list Z -> V) L r : array_is r s (fun p => E (gather L p)) -> value_of s E L (Array r).
Proof.
  intros [Hs Hv]. split; rewrite Hs; [clear; induction s; constructor; auto|]. intros p Hp. rewrite own_place by exact Hp. now apply Hv.
Qed.
Lemma fits_refl s : fits s s.
Proof. induction s; constructor; auto. Qed.
Lemma apply_two {V} (op : list V -> V) s L (E F : list Z -> V) r r' : array_is r s (fun p => E (gather L p)) -> array_is r' s (fun p => F (gather L p)) ->
  exists w, apply_op op [Array r; Array r'] = Some w /\ array_is w s (fun p => op [E (gather L p); F (gather L p)]).
Proof.
  intros H1 H2. apply (apply_op_spec op s L [E; F] [Array r; Array r']).
  - constructor; [now apply full_value|]. constructor; [now apply full_value|constructor].
  - cbn [flat_map app]. rewrite (proj1 H1), (proj1 H2). apply bcast_shapes_full; [discriminate| |].
    + constructor; [apply fits_refl|]. constructor; [apply fits_refl|constructor].
    + intros i n Hi. exists s. split; [now left|exact Hi].
Qed.
