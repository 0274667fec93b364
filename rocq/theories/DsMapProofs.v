(** Selection in a dataset. *)
From Coq Require Import ZArith List Bool Lia QArith_base String Ascii.
From Verif Require Import SortSpec IndexModel IndexSpec IndexProofs ArrModel ArrProofs ViewModel ViewSpec ViewProofs AxisModel AxisSpec AxisProofs VarOpsModel VarOpsSpec VarOpsProofs
  ReduceSpec RespondProofs StencilModel SelectModel SelectSpec SelectProofs DatasetModel DatasetSpec DatasetProofs DatasetProps CallProofs DsMapModel DsMapSpec.
Import ListNotations.
Open Scope Z_scope.
Open Scope list_scope.

Lemma close_refl q : close q q = true.
Proof.
  unfold close. apply Qle_bool_iff. unfold Qminus. rewrite Qplus_opp_r. cbn [Qabs.Qabs Z.abs].
  rewrite <- (Qplus_0_r (Qabs.Qabs 0)). apply Qplus_le_compat; [unfold Qle; cbn; lia|].
  apply Qmult_le_0_compat; [unfold Qle; cbn; lia|apply Qabs.Qabs_nonneg].
Qed.
Lemma allclose_refl l : allclose l l = true.
Proof.
  unfold allclose. rewrite Nat.eqb_refl. cbn. induction l as [|q l IH]; [reflexivity|]. cbn. now rewrite close_refl.
Qed.
Lemma prefix_refl c : prefix c c = true.
Proof. induction c as [|x c IH]; [reflexivity|]. cbn. now rewrite Z.eqb_refl. Qed.
Lemma axis_eq_self a : self_equal a -> axis_eq a a = true.
Proof.
  destruct a as [c|n|t]; intros H; cbn [axis_eq axis_same].
  - unfold coord_eq. rewrite prefix_refl. cbn [negb andb]. assert (is_equivalent c c = true) as E.
    { unfold is_equivalent, comparable. rewrite prefix_refl. cbn [orb]. rewrite allclose_refl.
      destruct (list_eq_dec zpair_eq_dec (c_atts c) (c_atts c)) as [_|K]; [|now destruct K]. unfold zlist_eqb. destruct (list_eq_dec Z.eq_dec (map fst (c_aux c)) (map fst (c_aux c))) as [_|K]; [|now destruct K].
      assert (forallb (fun '(x, y) => allclose (snd x) (snd y)) (combine (c_aux c) (c_aux c)) = true) as ->. { induction (c_aux c) as [|x l IH]; [reflexivity|]. cbn. now rewrite allclose_refl. }
      destruct (c_class c); [rewrite Z.eqb_refl|]; reflexivity. }
    rewrite E. cbn in H. destruct (c_kind c); [reflexivity|now rewrite Z.eqb_refl|congruence].
  - unfold noncoord_eq. unfold class_eqb, zlist_eqb. repeat match goal with |- context [if ?d then _ else _] => destruct d as [_|K]; [|now destruct K] end. rewrite prefix_refl. reflexivity.
  - unfold time_eq, class_eqb, mask_eqb, zlist_eqb. rewrite !Bool.eqb_reflx, Nat.eqb_refl, prefix_refl. repeat match goal with |- context [if ?d then _ else _] => destruct d as [_|K]; [|now destruct K] end. cbn [andb].
    induction (records (t_mask t) t) as [|r l IH]; [reflexivity|]. cbn [combine forallb]. rewrite IH, andb_true_r. clear. induction r as [|x r IH]; [reflexivity|]. cbn. rewrite IH. unfold zclose. now rewrite close_refl.
Qed.
Lemma sliced_self_equal a l b : sliced a l b -> self_equal a -> self_equal b.
Proof. destruct a, b; cbn; try tauto. intros (H & _). now rewrite H. Qed.
Lemma increasing_same l m : increasing l -> increasing m -> (forall x, In x l <-> In x m) -> l = m.
Proof.
  revert m. induction l as [|a l IH]; intros [|b m] Hl Hm H; [reflexivity|exfalso; apply (proj2 (H b)); now left|exfalso; apply (proj1 (H a)); now left|].
  destruct (increasing_tail _ _ Hl) as [Hl' La], (increasing_tail _ _ Hm) as [Hm' Lb].
  assert (a = b) as ->. { destruct (proj1 (H a) (or_introl eq_refl)) as [->|Ha]; [reflexivity|]. destruct (proj2 (H b) (or_introl eq_refl)) as [->|Hb]; [reflexivity|]. pose proof (La b Hb). pose proof (Lb a Ha). lia. }
  f_equal. apply IH; auto. intros x. specialize (H x). cbn in H. split; intros Hx.
  - destruct (proj1 H (or_intror Hx)) as [->|K]; [pose proof (La x Hx); lia|exact K].
  - destruct (proj2 H (or_intror Hx)) as [->|K]; [pose proof (Lb x Hx); lia|exact K].
Qed.
Lemma selected_same N a K l m : selected N a K l -> selected N a K m -> l = m.
Proof.
  intros (H1 & H2 & H3) (M1 & M2 & M3). apply increasing_same; auto. intros x. unfold in_range in *. rewrite Forall_forall in *. split; intros Hx.
  - apply M3; [now apply H2|]. now apply H3; [apply H2|].
  - apply H3; [now apply M2|]. now apply M3; [apply M2|].
Qed.

Section Objs.
Context {V : Type} (N : naming) (env : axenv) (Henv : env_ok env) (junk : list Z -> V) (enc : string -> Z).
Notation vobj := (vobj V).
Lemma slice_objs_spec axes : forall next inds objs next', List.length inds = List.length axes -> slice_objs env next axes inds = (objs, next') ->
  next <= next' /\ map a_axis objs = map (fun '(a, l) => axis_take env a l) (combine (map a_axis axes) inds) /\ map a_name objs = map a_name axes /\
  (forall b, In b objs -> In b axes \/ next <= a_id b < next') /\
  (forall b c, In b objs -> In c objs -> a_id b = a_id c -> next <= a_id b -> (forall a, In a axes -> a_id a < next) -> b = c).
Proof.
  induction axes as [|a axes IH]; intros next [|l inds] objs next' HL H; try discriminate; cbn [slice_objs] in H.
  - injection H as <- <-. split; [lia|]. split; [reflexivity|]. split; [reflexivity|]. split; intros b; contradiction.
  - cbn in HL. injection HL as HL. destruct (qlist_eqb (pick 0%Q (axis_vals (a_axis a)) l) (axis_vals (a_axis a))) eqn:E.
    + destruct (slice_objs env next axes inds) as [o n] eqn:Eo. injection H as <- <-. destruct (IH _ _ _ _ HL Eo) as (H1 & H2 & H3 & H4 & H5).
      split; [exact H1|]. split; [cbn [map combine]; rewrite H2; f_equal; unfold axis_take; now rewrite E|]. split; [cbn; now rewrite H3|]. split.
      * intros b [<-|Hb]; [left; now left|]. destruct (H4 b Hb); [left; now right|now right].
      * intros b c Hb Hc Eid Hnew Hold. assert (forall x, In x axes -> a_id x < next) as Hold' by (intros; apply Hold; now right). destruct Hb as [<-|Hb], Hc as [<-|Hc]; [reflexivity| | |now apply H5].
        -- pose proof (Hold a (or_introl eq_refl)). lia.
        -- pose proof (Hold a (or_introl eq_refl)). lia.
    + destruct (slice_objs env (next + 1) axes inds) as [o n] eqn:Eo. injection H as <- <-. destruct (IH _ _ _ _ HL Eo) as (H1 & H2 & H3 & H4 & H5).
      split; [lia|]. split; [cbn [map combine]; rewrite H2; reflexivity|]. split; [cbn; now rewrite H3|]. split.
      * intros b [<-|Hb]; [right; cbn [a_id]; lia|]. destruct (H4 b Hb); [left; now right|right; lia].
      * intros b c Hb Hc Eid Hnew Hold. assert (forall x, In x axes -> a_id x < next + 1) as Hold' by (intros x Hx; pose proof (Hold x (or_intror Hx)); lia).
        assert (forall x, In x o -> a_id x <> next) as Hnx. { intros x Hx. destruct (H4 x Hx) as [K|K]; [pose proof (Hold x (or_intror K)); lia|lia]. }
        destruct Hb as [<-|Hb], Hc as [<-|Hc]; cbn [a_id] in *; [reflexivity|pose proof (Hnx c Hc); congruence|pose proof (Hnx b Hb); congruence|].
        apply H5; auto. pose proof (Hnx b Hb). lia.
Qed.

Lemma plain_prefixes axes kw : NoDup (map fst kw) -> plain_keys N axes kw -> prefixes N axes kw [] [] [] = Some ([], [], kw).
Proof.
  intros Hnd [Hs Hp].
  destruct (prefixes_spec N axes kw [] [] [] kw) as (ms & ss & E & Hm & Hsq); auto.
  { intros kv ax Hin [K|K]; exfalso; destruct (Hp kv ax Hin); contradiction. }
  rewrite E. cbn [app]. destruct ms as [|ax ms]; [|exfalso; destruct (proj1 (Hm ax) (or_introl eq_refl)) as (kv & Hkv & K); destruct (Hp kv ax Hkv); contradiction].
  destruct ss as [|ax ss]; [reflexivity|]. exfalso. destruct (proj1 (Hsq ax) (or_introl eq_refl)) as (pre & kv & post & -> & K & _). destruct (Hp kv ax); [apply in_app_iff; right; now left|contradiction].
Qed.
Lemma take_sliced axes : forall inds, Forall good_axis axes -> Forall2 (fun a l => in_range (axis_len a) l) axes inds ->
  Forall2 (fun '(a, b) l => sliced a l b) (combine axes (map (fun '(a, l) => axis_take env a l) (combine axes inds))) inds.
Proof.
  induction axes as [|a axes IH]; intros inds Hg H; inversion H as [|? l ? inds' H1 H2]; subst; [constructor|]. inversion Hg as [|? ? G1 G2]; subst.
  cbn [combine map]. constructor; [now apply sliced_self|now apply IH].
Qed.
Lemma slice_var_axes (x : var axis V) sls inds y : slice_var env junk x (map Sl sls) = Some y -> List.length sls = List.length (var_axes x) ->
  sequence (map (fun '(a, s) => slice_index s (axis_len a)) (combine (var_axes x) sls)) = Some inds ->
  var_axes y = map (fun '(a, l) => axis_take env a l) (combine (var_axes x) inds).
Proof.
  intros H HL Hi. unfold slice_var in H. assert (completed (map Sl sls) (List.length (var_axes x)) sls) as Hc.
  { exists sls, [], 0%nat. split; [right; split; reflexivity|]. cbn. rewrite app_nil_r. split; [reflexivity|exact HL]. }
  rewrite (proj2 (fill_ellipsis_spec _ _ _) Hc), Hi in H. destruct (forallb _ _) eqn:E; injection H as <-; [|reflexivity].
  assert (forall axes inds, List.length inds = List.length axes -> forallb (fun '(a, ind) => qlist_eqb (pick 0%Q (axis_vals a) ind) (axis_vals a)) (combine axes inds) = true ->
    axes = map (fun '(a, l) => axis_take env a l) (combine axes inds)) as K.
  { clear. induction axes as [|a axes IH]; intros [|l inds] HL H; try discriminate; [reflexivity|]. cbn [combine forallb map] in *. apply andb_prop in H as [H1 H2]. rewrite <- IH by (auto; now injection HL).
    unfold axis_take. now rewrite H1. }
  apply K; [|exact E]. apply sequence_Forall2 in Hi. rewrite <- (ArrProofs.Forall2_len _ _ _ Hi), combine_length. lia.
Qed.

(** what one variable becomes *)
Definition selects_var (kw : list (string * request)) (v w : vobj) : Prop :=
  v_name w = v_name v /\ map a_name (v_axes w) = map a_name (v_axes v) /\
  exists inds, all_selected N (map a_axis (v_axes v)) kw inds /\
    map a_axis (v_axes w) = map (fun '(a, l) => axis_take env a l) (combine (map a_axis (v_axes v)) inds) /\
    forall D, holds env (var_of v) D -> holds env (var_of w) (fun p => D (gather inds p)).
Lemma select_obj_spec kw next v : NoDup (map fst kw) -> selectable N env kw v ->
  exists w next', select_obj N env junk kw next v = Some (Some w, next') /\ selects_var kw v w /\ next <= next' /\
    (forall b, In b (v_axes w) -> In b (v_axes v) \/ next <= a_id b < next') /\
    (forall b c, In b (v_axes w) -> In c (v_axes w) -> a_id b = a_id c -> next <= a_id b -> (forall a, In a (v_axes v) -> a_id a < next) -> b = c).
Proof.
  intros Hnd ((D0 & HD0) & Hf & Hp & Hg). unfold select_obj. rewrite (plain_prefixes _ _ Hnd Hp).
  destruct (get_slices_total N _ Hf kw Hg) as ([sls rest] & E). rewrite E. cbn [bind].
  destruct (get_slices_spec N _ Hf kw _ _ E) as (inds & -> & Hall & _). pose proof Hall as [Hlen Hsel].
  assert (Forall2 (fun '(n, s) l => index_of_slice s n l) (combine (var_shape (var_of v)) (map simplify inds)) inds) as Hi.
  { unfold var_shape, var_of. cbn [var_axes]. apply slices_chosen; [exact Hlen|]. intros j a l Ha Hl. apply (Hsel j a l Ha Hl). }
  assert (completed (map Sl (map simplify inds)) (List.length (var_axes (var_of v))) (map simplify inds)) as Hc.
  { exists (map simplify inds), [], 0%nat. split; [right; split; reflexivity|]. cbn. rewrite app_nil_r. split; [reflexivity|]. rewrite !map_length in *. exact Hlen. }
  assert (sequence (map (fun '(a, s) => slice_index s (axis_len a)) (combine (map a_axis (v_axes v)) (map simplify inds))) = Some inds) as Hq.
  { apply sequence_Forall2. unfold var_shape, var_of in Hi. cbn [var_axes] in Hi. apply (Forall2_combine_map axis_len (fun n s l => index_of_slice s n l)) in Hi.
    eapply Forall2_impl; [|exact Hi]. intros [a s] l. now apply (slice_index_complete junk). }
  assert (sequence (map (fun '(a, s) => slice_index s (axis_len (a_axis a))) (combine (v_axes v) (map simplify inds))) = Some inds) as Hq'.
  { rewrite <- Hq. f_equal. generalize (map simplify inds). clear. induction (v_axes v) as [|a l IH]; intros [|s m]; [reflexivity..|]. cbn. now rewrite IH. }
  rewrite Hq'. cbn [bind]. destruct (slice_total env Henv junk (var_of v) D0 _ _ inds HD0 Hc Hi) as (y & Hy & _). rewrite Hy. cbn [bind].
  assert (var_axes y = map (fun '(a, l) => axis_take env a l) (combine (map a_axis (v_axes v)) inds)) as Hya.
  { apply (slice_var_axes (var_of v) (map simplify inds) inds y Hy); [|exact Hq]. unfold var_of. cbn [var_axes]. rewrite !map_length in *. exact Hlen. }
  destruct (slice_objs env next (v_axes v) inds) as [objs next'] eqn:Eo.
  destruct (slice_objs_spec (v_axes v) next inds objs next') as (H1 & H2 & H3 & H4 & H5); [now rewrite map_length in Hlen|exact Eo|].
  exists (MkVar (v_name v) objs (var_source y)), next'. split; [reflexivity|]. split; [|split; [exact H1|split; [exact H4|exact H5]]].
  split; [reflexivity|]. split; [exact H3|]. exists inds. split; [exact Hall|]. split; [exact H2|]. intros D HD.
  destruct (slice_total env Henv junk (var_of v) D _ _ inds HD Hc Hi) as (y' & Hy' & _ & _ & _ & Hh). rewrite Hy in Hy'. injection Hy' as <-.
  unfold var_of. cbn [v_axes v_source]. rewrite H2, <- Hya. destruct y as [ya ys]. cbn [var_axes var_source]. apply Hh.
  apply Forall_forall. intros l Hl. apply In_nth_error in Hl as (j & Hj). destruct (nth_error (map a_axis (v_axes v)) j) as [a|] eqn:Ea.
  - apply increasing_distinct. apply (Hsel j a l Ea Hj).
  - exfalso. apply nth_error_None in Ea. assert (nth_error inds j <> None) as K by congruence. apply nth_error_Some in K. lia.
Qed.
Lemma map_select kw P next0 : NoDup (map fst kw) -> objects P next0 -> forall vars next, incl (axes_of vars) P -> next0 <= next -> Forall (selectable N env kw) vars ->
  exists ws next', map_vars (select_obj N env junk kw) next vars = Some (ws, next') /\ next <= next' /\ Forall2 (selects_var kw) vars ws /\
    (forall b, In b (axes_of ws) -> In b P \/ next <= a_id b < next') /\
    (forall b c, In b (axes_of ws) -> In c (axes_of ws) -> a_id b = a_id c -> b = c).
Proof.
  intros Hnd [Ho1 Ho2]. induction vars as [|v vars IH]; intros next Hincl Hn HF.
  - exists [], next. split; [reflexivity|]. split; [lia|]. split; [constructor|]. split; intros b; contradiction.
  - inversion HF as [|? ? F1 F2]; subst. destruct (select_obj_spec kw next v Hnd F1) as (w & n1 & E1 & Hw & L1 & I1 & U1).
    destruct (IH n1) as (ws & n2 & E2 & L2 & HF2 & I2 & U2); [intros b Hb; apply Hincl; cbn; apply in_app_iff; now right|lia|exact F2|].
    assert (incl (v_axes v) P) as Hv by (intros b Hb; apply Hincl; cbn; apply in_app_iff; now left).
    exists (w :: ws), n2. split; [cbn [map_vars]; rewrite E1; cbn [bind]; rewrite E2; reflexivity|]. split; [lia|]. split; [constructor; assumption|].
    assert (forall b, In b (v_axes w) -> In b P \/ next <= a_id b < n1) as J1. { intros b Hb. destruct (I1 b Hb) as [K|K]; [left; now apply Hv|now right]. }
    split.
    + intros b Hb. cbn in Hb. apply in_app_iff in Hb as [Hb|Hb]; [destruct (J1 b Hb); [now left|right; lia]|destruct (I2 b Hb); [now left|right; lia]].
    + assert (forall b c, In b (v_axes w) -> In c (axes_of ws) -> a_id b = a_id c -> b = c) as X.
      { intros b c Hb Hc E. destruct (J1 b Hb) as [Kb|Kb], (I2 c Hc) as [Kc|Kc]; [now apply Ho1| | |]; [pose proof (Ho2 b Kb); lia|pose proof (Ho2 c Kc); lia|lia]. }
      intros b c Hb Hc E. cbn in Hb, Hc. apply in_app_iff in Hb as [Hb|Hb], Hc as [Hc|Hc]; [|now apply X|symmetry; now apply X|now apply U2].
      destruct (Z.lt_ge_cases (a_id b) next) as [Hlt|Hge].
      * destruct (J1 b Hb) as [Kb|Kb]; [|lia]. destruct (J1 c Hc) as [Kc|Kc]; [|lia]. now apply Ho1.
      * apply U1; auto. intros a Ha. pose proof (Ho2 a (Hv a Ha)). lia.
Qed.
End Objs.
