(** C66: v[...] is numpy's indexing of all values. *)
From Coq Require Import ZArith List Bool Lia QArith_base.
From Verif Require Import SortSpec IndexModel IndexSpec IndexProofs ArrModel ArrProofs ViewModel ViewSpec AxisModel AxisSpec AxisProofs VarOpsModel VarOpsSpec VarOpsProofs VarOpsLemmas StencilModel InterpView
  EnvExample ViewProps VarOpsProps ItemModel ItemSpec.
Import ListNotations.
Open Scope Z_scope.

Definition ex (s : sel) : sel := if is_int s then SInt 0 else whole.
Lemma extra_completed args n sls : completed args n sls -> completed (map (fun a => extra (Py a)) args) n (map ex sls).
Proof.
  intros (b & a & m & H & -> & L). exists (map ex b), (map ex a), m. 
  assert (M : forall l, map (fun a => extra (Py a)) (map Sl l) = map Sl (map ex l)). { intros l. rewrite !map_map. apply map_ext. intros [s|i|l']; reflexivity. }
  split; [|split].
  - destruct H as [->|[-> ->]]; [left | right; split; [|reflexivity]]; [|apply M]. rewrite map_app. cbn [map extra]. now rewrite !M.
  - rewrite !map_app. f_equal. f_equal. clear. induction m as [|m IH]; [reflexivity|]. cbn [repeat map]. f_equal. exact IH.
  - now rewrite map_length.
Qed.
Lemma whole_index n : 0 <= n -> slice_index whole n = Some (arange 0 n 1).
Proof. intros Hn. cbn. unfold eff_start, eff_stop, eff_step. cbn. reflexivity. Qed.
(** the second step: integers have left dimensions of length 1 *)
Definition seconds (sls : list sel) (inds : list (list Z)) : list (list Z) := map (fun '(s, l) => if is_int s then [0] else arange 0 (zlen l) 1) (combine sls inds).
Lemma second_index : forall sls inds ns, Forall2 (fun '(n, s) l => index_of_slice s n l) (combine ns sls) inds -> length ns = length sls ->
  sequence (map (fun '(n, s) => slice_index s n) (combine (map zlen inds) (map ex sls))) = Some (seconds sls inds).
Proof.
  induction sls as [|s sls IH]; intros inds ns H L; destruct ns as [|n ns]; try discriminate; cbn [combine] in H; inversion H as [|? l ? inds' Hl HF]; subst; [reflexivity|].
  cbn [map combine sequence]. assert (E : slice_index (ex s) (zlen l) = Some (if is_int s then [0] else arange 0 (zlen l) 1)).
  { unfold ex. destruct s as [s|i|il]; cbn [is_int]; [apply whole_index; unfold zlen; lia| |apply whole_index; unfold zlen; lia]. cbn in Hl. destruct Hl as [_ ->]. reflexivity. }
  rewrite E, (IH inds' ns HF) by (cbn in L; lia). reflexivity.
Qed.
Lemma item_source : forall sls inds p q, item sls inds p q -> exists m, picks inds m q /\ position (map zlen inds) m /\ np_source (map ex sls) (seconds sls inds) p = m.
Proof.
  intros sls inds p q H. induction H as [|i k sls inds p q H (m & P1 & P2 & P3)|s l j x sls inds p q Hs He H (m & P1 & P2 & P3)].
  - exists []. repeat split; constructor.
  - exists (0 :: m). unfold seconds. cbn [map combine np_source ex is_int hd]. fold (seconds sls inds). rewrite P3. split; [constructor; [split; [lia|reflexivity] | exact P1]|]. split; [|reflexivity]. constructor; [cbn; lia | exact P2].
  - exists (j :: m). assert (J : 0 <= j < zlen l). { destruct He as [H0 He]. pose proof (proj1 (nth_error_Some l (Z.to_nat j)) ltac:(congruence)). unfold zlen. lia. }
    assert (NI : is_int s = false) by (destruct s; try reflexivity; exfalso; eapply Hs; reflexivity). unfold seconds. cbn [map combine np_source hd tl]. fold (seconds sls inds). unfold ex at 1. rewrite NI. cbn [is_int whole]. rewrite P3.
    split; [constructor; [exact He | exact P1]|]. split; [constructor; [exact J | exact P2]|]. f_equal. apply znth_elem. apply elem_arange01. auto.
Qed.
Lemma second_shape : forall sls inds, length inds = length sls -> item_shape sls inds (np_shape (map ex sls) (seconds sls inds)).
Proof.
  induction sls as [|s sls IH]; intros [|l inds] L; try discriminate; [constructor|]. unfold seconds. cbn [map combine np_shape]. fold (seconds sls inds). assert (L' : length inds = length sls) by (cbn in L; lia).
  destruct s as [s|i|il]; cbn [ex is_int whole]; [|constructor; now apply IH|];
    (assert (E : zlen (arange 0 (zlen l) 1) = zlen l) by (unfold zlen at 1; rewrite InterpView.length_arange; unfold zlen; lia); rewrite E; constructor; [discriminate | now apply IH]).
Qed.
Lemma no_ints : forall sls inds, length inds = length sls -> (forall i, ~ In (SInt i) sls) -> item_shape sls inds (map zlen inds) /\ (forall p q, item sls inds p q -> picks inds p q /\ position (map zlen inds) p).
Proof.
  induction sls as [|s sls IH]; intros [|l inds] L N; try discriminate.
  - split; [constructor|]. intros p q H. inversion H; subst. split; constructor.
  - destruct (IH inds ltac:(cbn in L; lia) (fun i Hi => N i (or_intror Hi))) as [H1 H2]. assert (S1 : forall i, s <> SInt i) by (intros i ->; apply (N i); now left). split; [cbn [map]; now constructor|].
    intros p q H. inversion H as [|i k sls' inds' p' q' H' E1|s' l' j x sls' inds' p' q' Hs He H']; subst; [exfalso; now apply (S1 i)|]. destruct (H2 p' q' H') as [A B].
    assert (J : 0 <= j < zlen l). { destruct He as [H0 He]. pose proof (proj1 (nth_error_Some l (Z.to_nat j)) ltac:(congruence)). unfold zlen. lia. }
    split; constructor; auto.
Qed.

(** v[s0, s1, ...] and v[s]: the shape and the elements that numpy's rule gives for the array of all values *)
Theorem C66_getitem : forall {V} env (junk : list Z -> V) (x : var axis V) D k args sls inds,
  env_ok env -> holds env x D -> plain_key k args ->
  completed args (length (var_axes x)) sls ->
  Forall2 (fun '(n, s) l => index_of_slice s n l) (combine (var_shape x) sls) inds ->
  exists r, var_getitem env junk x k = Some r /\ item_shape sls inds (shape r) /\ forall p q, item sls inds p q -> val r p = D q.
Proof.
  intros V env junk x D k args sls inds Henv Hx Hk Hc Hi. destruct (slice_statement env junk x D args sls inds Henv Hx Hc Hi) as (y & D' & Ey & _ & Sy & Gy & HD & _).
  destruct (getable_var_get env junk y D' Gy) as (r0 & Er & S0 & V0). rewrite Sy in S0, V0.
  assert (Ls : length sls = length (var_axes x)) by (destruct Hc as (? & ? & ? & _ & _ & E); exact E).
  assert (Ln : length (var_shape x) = length sls) by (unfold var_shape; rewrite map_length; congruence).
  assert (Li : length inds = length sls) by (pose proof (ArrProofs.Forall2_len _ _ _ Hi) as HL; rewrite combine_length in HL; lia).
  assert (G : exists r, np_getitem r0 (map (fun a => extra (Py a)) args) = Some r /\ item_shape sls inds (shape r) /\ forall p q, item sls inds p q -> val r p = D q).
  { unfold np_getitem. apply extra_completed in Hc. replace (length (shape r0)) with (length (var_axes x)) by (rewrite S0, map_length; congruence). rewrite (proj2 (fill_ellipsis_spec _ _ _) Hc). cbn [bind].
    rewrite S0, (second_index sls inds _ Hi Ln). cbn [bind]. eexists. split; [reflexivity|]. cbn [shape val]. split; [now apply second_shape|]. intros p q H. destruct (item_source sls inds p q H) as (m & P1 & P2 & ->). rewrite (V0 m P2). now apply HD. }
  destruct Hk as [-> | (a & -> & Ha & ->)]; unfold var_getitem; cbn [args_of].
  - rewrite map_map. cbn [to_arg]. rewrite map_id, Ey. cbn [bind]. rewrite Er. cbn [bind]. rewrite map_map. exact G.
  - cbn [to_arg]. rewrite Ey. cbn [bind]. rewrite Er. cbn [bind]. destruct a as [s|]; [destruct s as [s|i|l]|].
    + exists r0. split; [reflexivity|].
      assert (N : forall i, ~ In (SInt i) sls).
      { intros i Hin. destruct Hc as (b & af & m & H & -> & _). assert (Hb : b = [SSlice s] /\ af = []). { destruct H as [H|[H ->]]; [destruct b as [|? [|? b]]; discriminate|]. destruct b as [|? [|? b]]; try discriminate. injection H as <-. auto. }
        destruct Hb as [-> ->]. rewrite app_nil_r in Hin. apply in_app_iff in Hin as [[Hin|[]]|Hin]; [discriminate | apply repeat_spec in Hin; discriminate]. }
      destruct (no_ints sls inds Li N) as [H1 H2]. rewrite S0. split; [exact H1|]. intros p q H. destruct (H2 p q H) as [A B]. rewrite (V0 p B). now apply HD.
    + exact G.
    + exfalso. now apply (Ha l).
    + exists r0. split; [reflexivity|].
      assert (N : forall i, ~ In (SInt i) sls).
      { intros i Hin. destruct Hc as (b & af & m & H & -> & _). assert (Hb : b = [] /\ af = []). { destruct H as [H|[H ->]]; [|destruct b as [|? b]; discriminate]. destruct b as [|? b]; [|discriminate]. destruct af; [auto|discriminate]. }
        destruct Hb as [-> ->]. rewrite app_nil_r in Hin. cbn in Hin. apply repeat_spec in Hin; discriminate. }
      destruct (no_ints sls inds Li N) as [H1 H2]. rewrite S0. split; [exact H1|]. intros p q H. destruct (H2 p q H) as [A B]. rewrite (V0 p B). now apply HD.
Qed.
Print Assumptions C66_getitem.

(** v[1, ::-1] of the table 0 1 2 / 10 11 12 *)
Definition show (k : key) (ps : list (list Z)) := option_map (fun r => (shape r, map (val r) ps)) (var_getitem env0 (fun _ => 0) blocks k).
Example C66_example :
  holds env0 blocks table /\ completed [Sl (SInt (-1)); Sl (SSlice (Slice None None (Some (-1))))] 2 [SInt (-1); SSlice (Slice None None (Some (-1)))] /\
  Forall2 (fun '(n, s) l => index_of_slice s n l) (combine (var_shape blocks) [SInt (-1); SSlice (Slice None None (Some (-1)))]) [[1]; [2; 1; 0]] /\
  item [SInt (-1); SSlice (Slice None None (Some (-1)))] [[1]; [2; 1; 0]] [0] [1; 2] /\
  show (Tuple (map Py [Sl (SInt (-1)); Sl (SSlice (Slice None None (Some (-1))))])) [[0]; [1]; [2]] = Some ([3], [12; 11; 10]) /\
  show (Tuple (map Py [Ellipsis; Sl (SInt 0)])) [[0]; [1]] = Some ([2], [0; 10]) /\
  show (One (Py (Sl (SInt 1)))) [[0]; [1]; [2]] = Some ([3], [10; 11; 12]) /\ show (One (Py Ellipsis)) [[1; 2]] = Some ([2; 3], [12]) /\
  show (Tuple (map Py [Sl (SInt 0); Sl (SInt 2)])) [[]] = Some ([], [2]).
Proof.
  split; [apply blocks_holds|]. split; [exists [SInt (-1); SSlice (Slice None None (Some (-1)))], [], 0%nat; cbn; auto|]. split; [apply slices_by_index; reflexivity|].
  split; [constructor; constructor; [discriminate | split; [lia|reflexivity] | constructor]|]. repeat split; vm_compute; reflexivity.
Qed.
(** v[[0, 1]]: numpy gives the first two rows, pygeode the one element v[0, 1] (in an array of shape (1, 1)) *)
Theorem C66_list_refuted : show (Indices [0; 1]) [[0; 0]] = Some ([1; 1], [1]) /\ show (Tuple (map Py [Sl (SList [0; 1])])) [[0; 0]; [1; 2]] = Some ([2; 3], [0; 12]).
Proof. split; vm_compute; reflexivity. Qed.
Print Assumptions C66_list_refuted.
(** v[n, :] with an integer of numpy's: the axis stays, unlike with the same integer of Python's *)
Theorem C66_numpy_int_refuted : show (Tuple [NpInt 1; Py (Sl whole)]) [[0; 2]] = Some ([1; 3], [12]) /\ show (Tuple [Py (Sl (SInt 1)); Py (Sl whole)]) [[2]] = Some ([3], [12]).
Proof. split; vm_compute; reflexivity. Qed.
Print Assumptions C66_numpy_int_refuted.
(** what is outside the axis, or too many entries, is refused *)
Theorem C66_refused : forall {V} env (junk : list Z -> V) (x : var axis V) k, (forall sls, ~ completed (args_of k) (length (var_axes x)) sls) -> var_getitem env junk x k = None.
Proof.
  intros V env junk x k H. unfold var_getitem, slice_var. destruct (fill_ellipsis (args_of k) (length (var_axes x))) as [sls|] eqn:E; [|reflexivity]. apply fill_ellipsis_spec in E. exfalso. exact (H sls E).
Qed.
Print Assumptions C66_refused.
Lemma sequence_None {A} (l : list (option A)) : In None l -> sequence l = None.
Proof. induction l as [|[a|] l IH]; intros []; try discriminate; cbn [sequence]; [now rewrite IH | reflexivity | reflexivity]. Qed.
Theorem C66_outside : forall {V} env (junk : list Z -> V) (x : var axis V) k sls j i a, completed (args_of k) (length (var_axes x)) sls ->
  nth_error sls j = Some (SInt i) -> nth_error (var_axes x) j = Some a -> ~ (- axis_len a <= i < axis_len a) -> var_getitem env junk x k = None.
Proof.
  intros V env junk x k sls j i a Hc Hs Ha Hi. unfold var_getitem, slice_var. rewrite (proj2 (fill_ellipsis_spec _ _ _) Hc). rewrite sequence_None; [reflexivity|].
  apply in_map_iff. exists (a, SInt i). split.
  - cbn [slice_index]. destruct ((- axis_len a <=? i) && (i <? axis_len a)) eqn:E; [|reflexivity]. apply andb_prop in E as [E1 E2]. exfalso. apply Hi. lia.
  - clear -Hs Ha. revert j sls Hs Ha. induction (var_axes x) as [|b l IH]; intros [|j] [|s sls] Hs Ha; try discriminate; cbn in Hs, Ha; [left; congruence | right; now apply (IH j)].
Qed.
Print Assumptions C66_outside.
Example C66_refused_example : (forall sls, ~ completed (args_of (Tuple [Py (Sl whole); NpInt 0; NpInt 1])) (length (var_axes blocks)) sls) /\ show (Tuple [Py (Sl (SInt 2)); Py Ellipsis]) [] = None.
Proof.
  split; [|vm_compute; reflexivity]. intros sls H. apply fill_ellipsis_spec in H. discriminate.
Qed.
