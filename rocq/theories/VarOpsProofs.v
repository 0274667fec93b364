(** Lazy variables: every wrapper holds the data numpy would compute *)
From Coq Require Import ZArith List Bool Lia Permutation QArith_base.
From Verif Require Import SortSpec TimeSearchSpec TimeMapProofs IndexModel IndexSpec IndexProofs ChunkProofs ArrModel ViewModel ViewSpec ArrProofs ViewProofs
  AxisModel AxisSpec AxisProofs VarOpsModel VarOpsSpec.
Import ListNotations.
Open Scope Z_scope.

Section Ops.
Context {V : Type} (env : axenv) (Henv : env_ok env) (junk : list Z -> V).
Notation ops := (axis_ops env).
Notation var := (ViewModel.var axis V).
Notation get := (ViewModel.get ops junk).

Lemma take_unrelated a b ind : unrelated a b -> unrelated a (axis_take env b ind).
Proof.
  unfold axis_take. destruct (qlist_eqb _ _); [auto|]. destruct a, b; cbn; auto.
Qed.
Lemma take_unrelated_l a b ind : unrelated a b -> unrelated (axis_take env a ind) b.
Proof.
  unfold axis_take. destruct (qlist_eqb _ _); [auto|]. destruct a, b; cbn; auto.
Qed.

Definition derived (B : list axis) (a : axis) (ii : nat * list Z) : Prop :=
  in_range (axis_len a) (snd ii) /\
  exists b, nth_error B (fst ii) = Some b /\
    (good_axis a /\ sliced a (snd ii) b \/ b = a /\ snd ii = arange 0 (axis_len a) 1) /\
    forall i' b', i' <> fst ii -> nth_error B i' = Some b' -> unrelated a b'.

Lemma subaxes_eq B L : Forall2 (fun b l => in_range (axis_len b) l) B L ->
  subaxes ops (view_of_inds B L) = Some (map (fun '(a, ind) => axis_take env a ind) (combine B L)).
Proof.
  unfold subaxes. cbn [vaxes vslices view_of_inds]. induction 1 as [|b l B L H _ IH]; [reflexivity|].
  cbn [map combine sequence]. cbn [len axis_ops take]. rewrite np_index_simplify by exact H.
  cbn [len axis_ops take] in IH. rewrite IH. reflexivity.
Qed.

Lemma find_first_none {B C} (f : B -> option C) l : (forall x, In x l -> f x = None) -> find_first f l = None.
Proof. induction l as [|x l IH]; intros H; [reflexivity|]. cbn. rewrite (H x) by now left. rewrite IH; [reflexivity|]. intros y Hy. apply H. now right. Qed.

Lemma in_range_map_znth n ind l : in_range n ind -> in_range (zlen ind) l -> in_range n (map (znth ind) l).
Proof.
  intros H1 H2. apply Forall_forall. intros x Hx. apply in_map_iff in Hx as (i & <- & Hi).
  apply (proj1 (Forall_forall _ _) H2) in Hi. eapply in_range_elem; [exact H1|]. now apply elem_znth.
Qed.

Lemma in_range_nonneg n l : in_range n l -> Forall (fun i => 0 <= i) l.
Proof. intros H. eapply Forall_impl; [|exact H]. cbn. intros; lia. Qed.

Lemma derived_mapped B L a i ind l : Forall2 (fun b l => in_range (axis_len b) l) B L ->
  derived B a (i, ind) -> nth_error L i = Some l -> mapped ops (view_of_inds B L) a (i, map (znth ind) l).
Proof.
  intros HBL (Hr & b & Hb & Hs & Hun) Hl. cbn [fst snd] in *.
  pose proof (Forall2_len _ _ _ HBL) as HL.
  pose proof (Forall2_nth_error _ _ _ _ _ _ HBL Hb Hl) as Hbl. cbn in Hbl.
  assert (axis_len b = zlen ind) as Hlen.
  { destruct Hs as [[G Hs] | [-> ->]]; [exact (sliced_len _ _ _ G Hs)|]. rewrite zlen_arange; [reflexivity|]. destruct a; apply zlen_nonneg. }
  rewrite Hlen in Hbl.
  pose proof (in_range_map_znth _ _ _ Hr Hbl) as Hr'.
  unfold mapped. cbn [fst snd vaxes vinds view_of_inds].
  assert (i < length B)%nat as Hi by (apply nth_error_Some; congruence).
  split; [|split; [exact Hr'|split; [exact Hi|]]].
  2:{ rewrite (nth_error_nth _ _ _ Hl), zlen_map. reflexivity. }
  unfold map_axis. cbn [vaxes].
  destruct (axis_same a b) eqn:Es.
  - assert (ind = arange 0 (axis_len a) 1) as -> by (destruct Hs as [[G Hs] | [_ ->]]; [eapply sliced_same; eassumption|reflexivity]).
    assert (0 <= axis_len a) by (destruct a; apply zlen_nonneg).
    rewrite zlen_arange in Hbl by assumption. rewrite arange_znth in * by exact Hbl.
    rewrite (proj2 (find_first_spec _ B i tt)).
    + exists (simplify l). split; [cbn [vslices view_of_inds]; now rewrite (nth_simplify _ _ _ Hl)|]. apply expand_simplify. eapply in_range_nonneg, Hbl.
    + split; [exists b; split; [exact Hb|cbn; now rewrite Es]|].
      intros j b' Hj Hb'. cbn. rewrite unrelated_same; [reflexivity|]. apply (Hun j b'); [lia|exact Hb'].
  - rewrite find_first_none.
    2:{ intros b' Hb'. change (In b' B) in Hb'. apply In_nth_error in Hb' as [j Hj]. cbn [same axis_ops]. destruct (Nat.eq_dec j i) as [->|Hne].
        - rewrite Hb in Hj. injection Hj as <-. now rewrite Es.
        - rewrite unrelated_same; [reflexivity|]. now apply (Hun j b'). }
    rewrite subaxes_eq by exact HBL.
    rewrite (proj2 (find_first_spec _ _ i (map (znth ind) l))).
    + eexists. split; [reflexivity|]. apply expand_simplify. eapply in_range_nonneg, Hr'.
    + split.
      * exists (axis_take env b l). split.
        -- rewrite nth_error_map, nth_error_combine, Hb, Hl. reflexivity.
        -- cbn [mapto axis_ops]. destruct Hs as [[G Hs] | [-> _]]; [|now rewrite same_refl in Es]. apply sliced_map; auto. apply sliced_take; auto.
      * intros j b' Hj Hb'. rewrite nth_error_map, nth_error_combine in Hb'.
        destruct (nth_error B j) as [c|] eqn:Ec; [|discriminate]. destruct (nth_error L j); [|discriminate]. cbn in Hb'. injection Hb' as <-.
        cbn [mapto axis_ops]. apply unrelated_map, take_unrelated. apply (Hun j c); [lia|exact Ec].
Qed.

Definition derived_data (D : list Z -> V) (js : list (nat * list Z)) (q : list Z) : V :=
  D (map (fun '(i, ind) => znth ind (nth i q 0)) js).

Lemma nth_gather L p i : length p = length L -> (i < length L)%nat -> nth i (gather L p) 0 = znth (nth i L []) (nth i p 0).
Proof.
  revert p i. induction L as [|l L IH]; intros [|x p] i H Hi; cbn in *; try lia. destruct i as [|i]; [reflexivity|]. apply IH; lia.
Qed.

Lemma length_outshape s sigma : length (outshape s sigma) = length s.
Proof. unfold outshape. rewrite map_length, combine_length, seq_length. lia. Qed.

Lemma get_derived_fetch B L (x : var) D js :
  (let mm := map (fun '(i, ind) => map (znth ind) (nth i L [])) js in
   exists r, fetch junk x (view_of_inds (var_axes x) mm) = Some r /\ array_is r (map zlen mm) (fun p => D (gather mm p))) ->
  Forall2 (fun b l => l <> [] /\ in_range (axis_len b) l) B L ->
  Forall2 (derived B) (var_axes x) js -> NoDup (map fst js) ->
  exists r, get (view_of_inds B L) x true true = Some r /\
    array_is r (outshape (map zlen L) (map fst js)) (fun p => derived_data D js (gather L p)).
Proof.
  intros Hx HBL Hjs Hnd.
  pose proof (Forall2_len _ _ _ HBL) as HL.
  assert (forall i ind, In (i, ind) js -> (i < length B)%nat) as Hib.
  { intros i ind Hin. apply (Forall2_In_r _ _ _ _ Hjs) in Hin as (a & _ & _ & b & Hb & _). cbn in Hb. apply nth_error_Some. congruence. }
  destruct (get_fetch ops junk B L x D (map (fun '(i, ind) => (i, map (znth ind) (nth i L []))) js)) as (r & Hget & Hsh & Hval).
  - now symmetry.
  - rewrite !map_map. cbn zeta in Hx.
    assert (forall (T : Type) (f : list Z -> T), map (fun x => f (snd (let '(i, ind) := x in (i, map (znth ind) (nth i L []))))) js = map f (map (fun '(i, ind) => map (znth ind) (nth i L [])) js)) as E.
    { intros T f. rewrite map_map. apply map_ext. now intros [i ind]. }
    rewrite (E _ zlen), (E _ (fun l => l)), map_id. exact Hx.
  - apply Forall2_map_r. clear -Henv junk Hjs HBL Hib HL.
    induction Hjs as [|a [i ind] axs js Hd Hjs IH]; [constructor|]. constructor.
    + apply derived_mapped; auto.
      * eapply Forall2_impl; [|exact HBL]. cbn. tauto.
      * apply nth_error_nth'. rewrite <- HL. eapply Hib. now left.
    + apply IH. intros i' ind' Hin. eapply Hib. right. exact Hin.
  - rewrite map_map. erewrite map_ext; [exact Hnd|]. now intros [i ind].
  - apply Forall_forall. intros m Hm. apply in_map_iff in Hm as ([i m'] & <- & Hm). apply in_map_iff in Hm as ([i' ind] & E & Hin).
    injection E as <- <-. cbn. pose proof (Hib _ _ Hin). 
    assert (nth i' L [] <> []) as Hne.
    { assert (In (nth i' L []) L) as Hin' by (apply nth_In; lia). apply (Forall2_In_r _ _ _ _ HBL) in Hin' as (b & _ & Hn & _). exact Hn. }
    destruct (nth i' L []); [congruence|discriminate].
  - exists r. split; [exact Hget|].
    assert (map fst (map (fun '(i, ind) => (i, map (znth ind) (nth i L []))) js) = map fst js) as Hf.
    { rewrite map_map. apply map_ext. now intros [i ind]. }
    rewrite Hf in *. split; [exact Hsh|]. intros p Hp. rewrite (Hval p Hp). unfold derived_data. f_equal.
    pose proof (Forall2_len _ _ _ Hp) as Hpl. rewrite length_outshape, map_length in Hpl.
    assert (forall i ind, In (i, ind) js -> 0 <= nth i p 0 < zlen (nth i L [])) as Hpos.
    { intros i ind Hin. eapply position_nth; [exact Hp|]. unfold outshape. rewrite nth_error_map, nth_error_combine, nth_error_seq.
      pose proof (Hib _ _ Hin). rewrite map_length, <- HL. destruct (Nat.ltb_spec i (length B)); [|lia]. rewrite nth_error_map.
      rewrite (nth_error_nth' L []) by lia. cbn.
      assert (existsb (Nat.eqb i) (map fst js) = true) as -> by (apply existsb_In, in_map_iff; exists (i, ind); auto). reflexivity. }
    clear -V env Henv junk Hpos Hpl Hib HL. induction js as [|[i ind] js IH]; [reflexivity|]. cbn [map gather fst snd]. f_equal.
    + rewrite nth_gather; [|lia|rewrite <- HL; eapply Hib; now left].
      specialize (Hpos i ind (or_introl eq_refl)). unfold znth at 1.
      rewrite (nth_indep _ 0 (znth ind 0)) by (rewrite map_length; unfold zlen in Hpos; lia). rewrite map_nth. reflexivity.
    + apply IH.
      * intros i' ind' Hin. eapply Hib. right. exact Hin.
      * intros i' ind' Hin. eapply Hpos. right. exact Hin.
Qed.

Lemma get_derived B L (x : var) D js : getable env x D -> 
  Forall2 (fun b l => l <> [] /\ in_range (axis_len b) l) B L ->
  Forall2 (derived B) (var_axes x) js -> NoDup (map fst js) ->
  exists r, get (view_of_inds B L) x true true = Some r /\
    array_is r (outshape (map zlen L) (map fst js)) (fun p => derived_data D js (gather L p)).
Proof.
  intros [Hx Hsep] HBL Hjs Hnd. apply get_derived_fetch; auto. cbv zeta. apply (fetch_spec ops junk); [exact Hx|].
  pose proof (Forall2_len _ _ _ HBL) as HL.
  apply Forall2_map_r. apply Forall2_intro_nth; [eapply Forall2_len, Hjs|]. intros k a [i ind] Ha Hj.
  pose proof (Forall2_nth_error _ _ _ _ _ _ Hjs Ha Hj) as Hd. destruct Hd as (Hr & b & Hb & Hs & Hun). cbn [fst snd] in *.
  destruct (nth_error L i) as [l|] eqn:El. 2:{ apply nth_error_None in El. assert (i < length B)%nat by (apply nth_error_Some; congruence). lia. }
  destruct (Forall2_nth_error _ _ _ _ _ _ HBL Hb El) as [Hne Hrl].
  rewrite (nth_error_nth _ _ _ El). split; [now destruct l|].
  assert (mapped ops (view_of_inds B L) a (i, map (znth ind) l)) as (_ & H & _); [|exact H].
  apply derived_mapped; [|exact (Forall2_nth_error _ _ _ _ _ _ Hjs Ha Hj)|exact El].
  eapply Forall2_impl; [|exact HBL]. cbn. tauto.
Qed.

Lemma outshape_full s sigma : (forall i, (i < length s)%nat -> In i sigma) -> outshape s sigma = s.
Proof.
  intros H. apply nth_error_ext'. intros i. unfold outshape. rewrite nth_error_map, nth_error_combine, nth_error_seq.
  destruct (Nat.ltb_spec i (length s)) as [Hi|Hi].
  - destruct (nth_error s i); [|reflexivity]. cbn. now rewrite (proj2 (existsb_In i sigma) (H i Hi)).
  - cbn. symmetry. now apply nth_error_None.
Qed.

(** a wrapper over rearranged axes holds the rearranged data *)
Lemma wrapped_represents (x : var) D B js : getable env x D ->
  Forall2 (derived B) (var_axes x) js -> NoDup (map fst js) ->
  (forall i, (i < length B)%nat -> In i (map fst js)) ->
  represents ops (wrapped env junk x B) (derived_data D js).
Proof.
  intros Hx Hjs Hnd Hcov inds Hreq. cbn [wrapped var_axes var_source] in *.
  destruct (get_derived B inds x D js Hx) as (r & Hget & Hr); auto.
  { eapply Forall2_impl; [|exact Hreq]. intros a l (H1 & H2 & _). auto. }
  exists r. split; [exact Hget|]. rewrite outshape_full in Hr; [exact Hr|].
  intros i Hi. apply Hcov. rewrite map_length, <- (Forall2_len _ _ _ Hreq) in Hi. exact Hi.
Qed.

(** the data of a variable, read through a view of its own axes *)
Lemma getable_get (x : var) D inds : getable env x D ->
  Forall2 (fun a l => in_range (axis_len a) l) (var_axes x) inds ->
  exists r, get (view_of_inds (var_axes x) inds) x true true = Some r /\
    array_is r (map zlen inds) (fun p => D (gather inds p)).
Proof.
  intros [Hx Hsep] Hr. apply (get_own_axes ops junk x D inds Hx); [|exact Hr].
  intros i j a b Ha Hb. split.
  - intros H. destruct (Nat.eq_dec i j) as [|Hne]; [assumption|]. rewrite unrelated_same in H; [discriminate|]. eapply Hsep; eassumption.
  - intros ->. rewrite Ha in Hb. injection Hb as <-. apply same_refl.
Qed.

Lemma full_view_eq axes : full_view env axes = Some (view_of_inds axes (map (fun a => arange 0 (axis_len a) 1) axes)).
Proof.
  unfold full_view, view_of_slices. rewrite map_length, Nat.eqb_refl.
  assert (sequence (map (fun '(sl, a) => expand sl (len ops a)) (combine (map (fun _ => whole) axes) axes)) =
          Some (map (fun a => arange 0 (axis_len a) 1) axes)) as ->.
  { induction axes as [|a axes IH]; [reflexivity|]. cbn [map combine sequence]. rewrite IH. reflexivity. }
  reflexivity.
Qed.

Lemma gather_aranges ns p : position ns p -> gather (map (fun n => arange 0 n 1) ns) p = p.
Proof.
  induction 1 as [|n x ns p H _ IH]; [reflexivity|]. cbn [map gather]. rewrite IH. f_equal. apply znth_elem, elem_arange01. lia.
Qed.
Lemma gather_axis_aranges axes p : position (map axis_len axes) p -> gather (map (fun a => arange 0 (axis_len a) 1) axes) p = p.
Proof. intros H. rewrite <- (map_map axis_len (fun n => arange 0 n 1)). now apply gather_aranges. Qed.

Lemma axis_len_nonneg a : 0 <= axis_len a.
Proof. destruct a; apply zlen_nonneg. Qed.

Lemma getable_var_get (x : var) D : getable env x D ->
  exists r, var_get env junk x = Some r /\ array_is r (var_shape x) D.
Proof.
  intros Hx. unfold var_get. rewrite full_view_eq.
  assert (map zlen (map (fun a => arange 0 (axis_len a) 1) (var_axes x)) = var_shape x) as Hz.
  { unfold var_shape. rewrite map_map. apply map_ext. intros a. apply zlen_arange, axis_len_nonneg. }
  destruct (getable_get x D (map (fun a => arange 0 (axis_len a) 1) (var_axes x)) Hx) as (r & Hr & Ha).
  { apply Forall2_map_r. clear -V env Henv junk. induction (var_axes x) as [|a axes IH]; [constructor|].
    constructor; [apply range_arange|assumption]. }
  exists r. split; [exact Hr|]. rewrite Hz in Ha. eapply array_is_ext; [exact Ha|].
  intros p Hp. cbv beta. rewrite gather_axis_aranges by exact Hp. reflexivity.
Qed.

(** only the elements of [D] inside the shape matter *)
Lemma represents_ext (x : var) D D' : represents ops x D -> (forall p, position (var_shape x) p -> D p = D' p) -> represents ops x D'.
Proof.
  intros Hx HD. unfold represents in *. destruct (var_source x) as [a|f|f].
  - eapply array_is_ext; [exact Hx|exact HD].
  - intros inds Hr. destruct (Hx inds Hr) as (r & Hf & Ha). exists r. split; [exact Hf|]. eapply array_is_ext; [exact Ha|].
    intros p Hp. apply HD. eapply gather_position; [|exact Hp]. unfold var_shape. apply Forall2_map_l. eapply Forall2_impl; [|exact Hr]. intros a l H. apply H.
  - intros start count Hsc Hl. destruct (Hx start count Hsc Hl) as (r & Hf & Ha). exists r. split; [exact Hf|]. eapply array_is_ext; [exact Ha|].
    intros p Hp. apply HD. unfold var_shape. clear -Hsc Hl Hp.
    revert start count Hsc Hl p Hp. induction (var_axes x) as [|a axs IH]; intros [|st start] [|ct count] Hsc Hl p Hp; cbn in *; inversion Hsc; subst; inversion Hp; subst; try discriminate.
    + constructor.
    + cbn [plus combine map]. constructor; [cbn in *; lia|]. apply (IH start count); auto.
Qed.
Lemma getable_ext (x : var) D D' : getable env x D -> (forall p, position (var_shape x) p -> D p = D' p) -> getable env x D'.
Proof. intros [H1 H2] H. split; [eapply represents_ext; eauto|exact H2]. Qed.
Lemma holds_ext (x : var) D D' : holds env x D -> (forall p, position (var_shape x) p -> D p = D' p) -> holds env x D'.
Proof. intros [H1 H2] H. split; [eapply getable_ext; eauto|exact H2]. Qed.

Lemma derived_separate axes B js : Forall2 (derived B) axes js -> (forall i, (i < length B)%nat -> In i (map fst js)) -> separate B.
Proof.
  intros Hjs Hcov i j a b Ha Hb Hne.
  assert (In i (map fst js)) as Hi by (apply Hcov, nth_error_Some; congruence).
  apply in_map_iff in Hi as ([i' ind] & E & Hin). cbn in E. subst i'.
  apply (Forall2_In_r _ _ _ _ Hjs) in Hin as (c & _ & _ & b' & Hb' & Hs & Hun). cbn in *.
  rewrite Ha in Hb'. injection Hb' as <-. pose proof (Hun j b (not_eq_sym Hne) Hb) as U.
  destruct Hs as [[_ Hs] | [-> _]]; [now apply (sliced_unrelated_l _ _ _ b Hs)|exact U].
Qed.

Lemma derived_good axes B js : Forall good_axis axes -> Forall2 (derived B) axes js -> (forall i, (i < length B)%nat -> In i (map fst js)) ->
  Forall (fun ii => NoDup (snd ii)) js -> Forall good_axis B.
Proof.
  intros Hg Hjs Hcov Hnd. apply Forall_forall. intros b Hb. apply In_nth_error in Hb as [i Hb].
  assert (In i (map fst js)) as Hi by (apply Hcov, nth_error_Some; congruence).
  apply in_map_iff in Hi as ([i' ind] & E & Hin). cbn in E. subst i'.
  pose proof (proj1 (Forall_forall _ _) Hnd _ Hin) as Hn. cbn in Hn.
  apply (Forall2_In_r _ _ _ _ Hjs) in Hin as (c & Hc & Hr & b' & Hb' & Hs & _). cbn in *.
  rewrite Hb in Hb'. injection Hb' as <-. pose proof (proj1 (Forall_forall _ _) Hg _ Hc) as Gc. destruct Hs as [[_ Hs] | [-> _]]; [eapply sliced_good; eauto|exact Gc].
Qed.

Lemma wrapped_getable (x : var) D B js : getable env x D ->
  Forall2 (derived B) (var_axes x) js -> NoDup (map fst js) ->
  (forall i, (i < length B)%nat -> In i (map fst js)) ->
  getable env (wrapped env junk x B) (derived_data D js) /\
  (Forall good_axis (var_axes x) -> Forall (fun ii => NoDup (snd ii)) js -> holds env (wrapped env junk x B) (derived_data D js)).
Proof.
  intros Hx Hjs Hnd Hcov.
  assert (getable env (wrapped env junk x B) (derived_data D js)) as G.
  { split; [now apply wrapped_represents|]. cbn. eapply derived_separate; eauto. }
  split; [exact G|]. intros Hg Hd. split; [exact G|]. cbn. eapply derived_good; eauto.
Qed.

Lemma sliced_self a l : good_axis a -> in_range (axis_len a) l -> sliced a l (axis_take env a l).
Proof.
  intros G Hl. pose proof (sliced_take env Henv a (arange 0 (axis_len a) 1) a l G) as H. rewrite arange_znth in H by exact Hl.
  apply H; [apply range_arange|rewrite zlen_arange by apply axis_len_nonneg; exact Hl|now apply sliced_refl].
Qed.

Lemma take_derived axes inds : separate axes -> Forall good_axis axes -> Forall2 (fun a l => in_range (axis_len a) l) axes inds ->
  Forall2 (derived (map (fun '(a, ind) => axis_take env a ind) (combine axes inds))) axes (combine (seq 0 (length axes)) inds).
Proof.
  intros Hsep Hg Hr. pose proof (Forall2_len _ _ _ Hr) as HL.
  apply Forall2_intro_nth; [rewrite combine_length, seq_length; lia|]. intros i a [k ind] Ha Hi.
  rewrite nth_error_combine, nth_error_seq in Hi. destruct (Nat.ltb_spec i (length axes)) as [Hlt|]; [|discriminate].
  destruct (nth_error inds i) as [l|] eqn:El; [|discriminate]. injection Hi as <- <-. cbn [Nat.add].
  pose proof (Forall2_nth_error _ _ _ _ _ _ Hr Ha El) as Hl. cbn in Hl.
  pose proof (proj1 (Forall_forall _ _) Hg a (nth_error_In _ _ Ha)) as Ga.
  split; [exact Hl|]. exists (axis_take env a l). cbn [fst snd]. split; [now rewrite nth_error_map, nth_error_combine, Ha, El|]. split.
  - left. split; [exact Ga|]. now apply sliced_self.
  - intros i' b' Hne Hb'. rewrite nth_error_map, nth_error_combine in Hb'.
    destruct (nth_error axes i') as [c|] eqn:Ec; [|discriminate]. destruct (nth_error inds i'); [|discriminate]. cbn in Hb'. injection Hb' as <-.
    apply take_unrelated. eapply Hsep; eauto.
Qed.

Lemma map_fst_combine {B C} (l : list B) (l' : list C) : length l = length l' -> map fst (combine l l') = l.
Proof. revert l'; induction l; intros [|? ?] E; simpl in *; try lia; [reflexivity|f_equal; auto]. Qed.
Lemma map_snd_combine {B C} (l : list B) (l' : list C) : length l = length l' -> map snd (combine l l') = l'.
Proof. revert l'; induction l; intros [|? ?] E; simpl in *; try lia; [reflexivity|f_equal; auto]. Qed.

Lemma gather_combine_seq inds p : length p = length inds ->
  map (fun '(i, ind) => znth ind (nth i p 0)) (combine (seq 0 (length inds)) inds) = gather inds p.
Proof.
  enough (forall pre, length p = length inds -> map (fun '(i, ind) => znth ind (nth i (pre ++ p) 0)) (combine (seq (length pre) (length inds)) inds) = gather inds p) as H by apply (H []).
  revert p. induction inds as [|l inds IH]; intros [|x p] pre H; cbn in H; try discriminate; [reflexivity|].
  cbn [length seq combine map gather]. f_equal; [now rewrite nth_middle|].
  specialize (IH p (pre ++ [x])). rewrite app_length in IH. cbn in IH. rewrite Nat.add_1_r in IH. rewrite <- app_assoc in IH. cbn in IH. apply IH. lia.
Qed.

(** selecting elements along every axis *)
Lemma take_var (x : var) D inds : holds env x D -> Forall2 (fun a l => in_range (axis_len a) l) (var_axes x) inds ->
  let y := wrapped env junk x (map (fun '(a, ind) => axis_take env a ind) (combine (var_axes x) inds)) in
  var_shape y = map zlen inds /\
  getable env y (fun p => D (gather inds p)) /\
  (Forall (@NoDup Z) inds -> holds env y (fun p => D (gather inds p))).
Proof.
  intros Hx Hr y. pose proof Hx as [[_ Hsep] Hg]. pose proof (Forall2_len _ _ _ Hr) as HL.
  pose proof (take_derived _ _ Hsep Hg Hr) as Hd.
  assert (var_shape y = map zlen inds) as Hshape.
  { unfold var_shape, y. cbn [wrapped var_axes]. rewrite map_map. clear -V env Henv junk Hr Hg.
    induction Hr as [|a l axs inds H _ IH]; [reflexivity|]. inversion Hg; subst. cbn [combine map]. f_equal; [|auto].
    eapply sliced_len; [eassumption|]. now apply sliced_self. }
  destruct (wrapped_getable x D (map (fun '(a, ind) => axis_take env a ind) (combine (var_axes x) inds)) (combine (seq 0 (length (var_axes x))) inds) (proj1 Hx)) as [G1 G2]; auto.
  { rewrite map_fst_combine by (rewrite seq_length; lia). apply seq_NoDup. }
  { rewrite map_fst_combine by (rewrite seq_length; lia). rewrite map_length, combine_length. intros i Hi. apply in_seq. lia. }
  fold y in G1, G2.
  assert (forall p, position (var_shape y) p -> derived_data D (combine (seq 0 (length (var_axes x))) inds) p = D (gather inds p)) as HD.
  { intros p Hp. unfold derived_data. f_equal. rewrite HL. apply gather_combine_seq. pose proof (Forall2_len _ _ _ Hp) as E.
    rewrite Hshape, map_length in E. lia. }
  split; [exact Hshape|]. split; [eapply getable_ext; eauto|]. intros Hnd. eapply holds_ext; [apply G2; [exact Hg|]|exact HD].
  clear -V env Henv junk Hnd HL. revert Hnd. generalize (seq 0 (length (var_axes x))). induction inds as [|l inds IH] in |- *; intros [|k s] Hnd; cbn; try constructor.
  - now inversion Hnd.
  - inversion Hnd; subst. eapply (IH s). assumption.
Qed.


(** ** slice *)
Lemma split_ellipsis_spec args : let '(b, a) := split_ellipsis args in
  (args = map Sl b ++ Ellipsis :: a) \/ (args = map Sl b /\ a = []).
Proof.
  induction args as [|[s|] args IH]; cbn.
  - right; auto.
  - destruct (split_ellipsis args) as [b a]. destruct IH as [-> | [-> ->]]; [left|right]; auto.
  - left; auto.
Qed.
Lemma plain_spec args l : plain args = Some l <-> args = map Sl l.
Proof.
  revert l. induction args as [|[s|] args IH]; intros l; cbn.
  - split; [intros [= <-]; reflexivity|]. destruct l; [reflexivity|discriminate].
  - destruct (plain args) as [l'|]; split.
    + intros [= <-]. cbn. f_equal. now apply IH.
    + destruct l as [|s' l]; [discriminate|]. cbn. intros [= -> H]. apply IH in H. congruence.
    + discriminate.
    + destruct l as [|s' l]; [discriminate|]. cbn. intros [= -> H]. apply IH in H. discriminate.
  - split; [discriminate|]. destruct l; discriminate.
Qed.
Lemma split_ellipsis_map l : split_ellipsis (map Sl l) = (l, []).
Proof. induction l as [|s l IH]; [reflexivity|]. cbn. now rewrite IH. Qed.
Lemma split_ellipsis_app l a : split_ellipsis (map Sl l ++ Ellipsis :: a) = (l, a).
Proof. induction l as [|s l IH]; [reflexivity|]. cbn. now rewrite IH. Qed.

Lemma fill_ellipsis_spec args n sls : fill_ellipsis args n = Some sls <-> completed args n sls.
Proof.
  unfold fill_ellipsis, completed. split.
  - pose proof (split_ellipsis_spec args) as H. destruct (split_ellipsis args) as [b a].
    destruct (plain a) as [af|] eqn:E; [|discriminate]. apply plain_spec in E as ->.
    destruct (Nat.ltb_spec n (length b + length af)) as [|Hle]; [discriminate|]. intros [= <-].
    exists b, af, (n - (length b + length af))%nat. split; [|split; [reflexivity|]].
    + destruct H as [-> | [-> E]]; [now left|]. right. split; [reflexivity|]. now destruct af.
    + rewrite !app_length, repeat_length. lia.
  - intros (b & a & m & H & -> & Hn). rewrite !app_length, repeat_length in Hn.
    destruct H as [-> | [-> ->]].
    + rewrite split_ellipsis_app. rewrite (proj2 (plain_spec (map Sl a) a) eq_refl).
      destruct (Nat.ltb_spec n (length b + length a)); [lia|]. repeat f_equal. lia.
    + rewrite split_ellipsis_map. cbn [plain length] in *. destruct (Nat.ltb_spec n (length b + 0)); [lia|]. repeat f_equal. lia.
Qed.

Lemma slice_index_spec s n l : slice_index s n = Some l -> index_of_slice s n l.
Proof.
  destruct s as [s|i|l']; cbn.
  - destruct (Z.eqb_spec (eff_step s) 0) as [|Hs]; [discriminate|]. intros [= <-]. split; [exact Hs|].
    intros k x. now apply elem_arange.
  - destruct (Z.leb_spec (- n) i), (Z.ltb_spec i n); cbn; try discriminate. intros [= <-]. split; [lia|reflexivity].
  - destruct (forallb _ l') eqn:E; [|discriminate]. intros [= <-]. induction l' as [|i l' IH]; [constructor|].
    cbn in E. apply andb_true_iff in E as [E1 E2]. constructor; [|now apply IH]. split; [lia|reflexivity].
Qed.
Lemma selects_range s n l : 0 <= n -> selects s n l -> in_range n l.
Proof.
  intros Hn [Hs H]. apply Forall_forall. intros x Hx. apply IndexProofs.In_elem in Hx as (k & Hk). apply H in Hk as (Hk & -> & H1 & H2).
  assert (0 <= eff_start s n \/ eff_step s < 0 /\ -1 <= eff_start s n) as Ha.
  { unfold eff_start. destruct (s_start s); destruct (Z.ltb_spec 0 (eff_step s)); unfold limit; lia. }
  assert (eff_start s n <= n - 1 \/ 0 < eff_step s /\ eff_start s n <= n) as Hb.
  { unfold eff_start. destruct (s_start s); destruct (Z.ltb_spec 0 (eff_step s)); unfold limit; lia. }
  assert (0 < eff_step s -> eff_stop s n <= n) as Hc.
  { unfold eff_stop. destruct (s_stop s); destruct (Z.ltb_spec 0 (eff_step s)); unfold limit; lia. }
  assert (eff_step s < 0 -> -1 <= eff_stop s n) as Hd.
  { unfold eff_stop. destruct (s_stop s); destruct (Z.ltb_spec 0 (eff_step s)); unfold limit; lia. }
  destruct (Z.lt_trichotomy (eff_step s) 0) as [Hl|[Hl|Hl]]; [|lia|]; nia.
Qed.
Lemma index_of_slice_range s n l : 0 <= n -> index_of_slice s n l -> in_range n l.
Proof.
  intros Hn. destruct s as [s|i|l']; cbn.
  - now apply selects_range.
  - intros [H ->]. constructor; [|constructor]. destruct (Z.ltb_spec i 0); lia.
  - induction 1 as [|i j l' l [H ->] _ IH]; [constructor|]. constructor; [|exact IH]. destruct (Z.ltb_spec i 0); lia.
Qed.

Lemma sequence_Forall2 {A B} (f : A -> option B) l r : sequence (map f l) = Some r <-> Forall2 (fun a b => f a = Some b) l r.
Proof.
  revert r. induction l as [|a l IH]; intros r; cbn.
  - split; [intros [= <-]; constructor|]. now inversion 1.
  - destruct (f a) as [b|] eqn:E.
    + destruct (sequence (map f l)) as [r'|] eqn:Es.
      * split; [intros [= <-]; constructor; [exact E|now apply IH]|]. inversion 1; subst. apply IH in H4. congruence.
      * split; [discriminate|]. inversion 1; subst. apply IH in H4. congruence.
    + split; [discriminate|]. inversion 1; subst. congruence.
Qed.

Lemma vals_unchanged a l : good_axis a -> in_range (axis_len a) l ->
  qlist_eqb (pick 0%Q (axis_vals a) l) (axis_vals a) = true -> l = arange 0 (axis_len a) 1.
Proof.
  intros G Hl E. pose proof (sliced_self a l G Hl) as Hs. unfold axis_take in Hs. rewrite E in Hs.
  eapply sliced_same; eauto. apply same_refl.
Qed.

Lemma slice_holds (x : var) D args y : holds env x D -> slice_var env junk x args = Some y ->
  exists sls inds, completed args (length (var_axes x)) sls /\
    Forall2 (fun '(a, s) l => index_of_slice s (axis_len a) l) (combine (var_axes x) sls) inds /\
    Forall2 (fun '(a, b) l => sliced a l b) (combine (var_axes x) (var_axes y)) inds /\
    var_shape y = map zlen inds /\
    getable env y (fun p => D (gather inds p)) /\
    (Forall (@NoDup Z) inds -> holds env y (fun p => D (gather inds p))).
Proof.
  intros Hx. unfold slice_var. destruct (fill_ellipsis args (length (var_axes x))) as [sls|] eqn:Ef; [|discriminate].
  apply fill_ellipsis_spec in Ef. assert (length sls = length (var_axes x)) as Hsl by (destruct Ef as (? & ? & ? & _ & _ & E); exact E).
  destruct (sequence _) as [inds|] eqn:Es; [|discriminate]. apply sequence_Forall2 in Es.
  assert (Forall2 (fun '(a, s) l => index_of_slice s (axis_len a) l) (combine (var_axes x) sls) inds) as Hi.
  { eapply Forall2_impl; [|exact Es]. intros [a s] l. apply slice_index_spec. }
  assert (Forall2 (fun a l => in_range (axis_len a) l) (var_axes x) inds) as Hr.
  { clear -V env Henv junk Hi Hsl. revert sls Hsl inds Hi. induction (var_axes x) as [|a axs IH]; intros [|s sls] Hsl inds Hi; cbn in *; try discriminate; inversion Hi; subst; constructor.
    - eapply index_of_slice_range; [apply axis_len_nonneg|eassumption].
    - eapply (IH sls); [lia|assumption]. }
  intros E. exists sls, inds. split; [exact Ef|]. split; [exact Hi|].
  destruct (take_var x D inds Hx Hr) as (T1 & T2 & T3). pose proof Hx as [_ Hg].
  destruct (forallb _ _) eqn:Eb; injection E as <-.
  - assert (inds = map (fun a => arange 0 (axis_len a) 1) (var_axes x)) as ->.
    { clear -V env Henv junk Hr Hg Eb. induction Hr as [|a l axs inds H _ IH]; [reflexivity|]. inversion Hg; subst. cbn in Eb. apply andb_true_iff in Eb as [E1 E2].
      cbn [map]. f_equal; [|now apply IH]. now apply vals_unchanged. }
    assert (map zlen (map (fun a => arange 0 (axis_len a) 1) (var_axes x)) = var_shape x) as Hz.
    { unfold var_shape. rewrite map_map. apply map_ext. intros a. apply zlen_arange, axis_len_nonneg. }
    assert (holds env x (fun p => D (gather (map (fun a => arange 0 (axis_len a) 1) (var_axes x)) p))) as Hh.
    { eapply holds_ext; [exact Hx|]. intros p Hp. cbv beta. now rewrite gather_axis_aranges by exact Hp. }
    split; [|split; [now symmetry|split; [apply Hh|now intros _]]].
    clear -V env Henv junk Hg. induction (var_axes x) as [|a axs IH]; [constructor|]. inversion Hg; subst. cbn. constructor; [now apply sliced_refl|auto].
  - split; [|split; [exact T1|split; [exact T2|exact T3]]]. cbn [wrapped var_axes].
    clear -V env Henv junk Hg Hr. induction Hr as [|a l axs inds H _ IH]; [constructor|]. inversion Hg; subst. cbn [combine map]. constructor; [now apply sliced_self|auto].
Qed.

(** ** sort, rename *)
Lemma good_len a : good_axis a -> zlen (axis_vals a) = axis_len a.
Proof.
  destruct a as [c|n|t]; cbn [axis_vals axis_len]; intros G; [reflexivity| |].
  - unfold indices_q. rewrite zlen_map. unfold zlen. now rewrite seq_length.
  - unfold zlen. now rewrite (time_length t G).
Qed.
Lemma axis_take_all a : good_axis a -> axis_take env a (arange 0 (axis_len a) 1) = a.
Proof.
  intros G. unfold axis_take. rewrite <- (good_len a G), pick_arange.
  destruct (qlist_eqb _ _) eqn:Eq; [reflexivity|]. exfalso. apply not_true_iff_false in Eq. apply Eq. apply qlist_eqb_elem.
  split; [reflexivity|]. intros k p q Hp Hq. rewrite (IndexProofs.elem_fun _ _ _ _ Hp Hq). reflexivity.
Qed.

Lemma NoDup_arange n : NoDup (arange 0 n 1).
Proof.
  unfold arange. apply FinFun.Injective_map_NoDup; [|apply seq_NoDup]. intros i j H. lia.
Qed.

Definition sort_index (a : axis) (o : option bool) : list Z :=
  match o with Some r => axis_argsort env a r | None => arange 0 (axis_len a) 1 end.

Lemma argsort_perm a r : good_axis a -> in_range (axis_len a) (axis_argsort env a r) /\ NoDup (axis_argsort env a r) /\
  index_permutation (Z.to_nat (axis_len a)) (axis_argsort env a r).
Proof.
  intros G. assert (index_permutation (Z.to_nat (axis_len a)) (axis_argsort env a r)) as H.
  { unfold axis_argsort. destruct Henv as [Ha _]. destruct (Ha (axis_vals a)) as [Hp _].
    assert (length (axis_vals a) = Z.to_nat (axis_len a)) as El by (rewrite <- good_len by exact G; unfold zlen; lia).
    rewrite El in Hp. unfold index_permutation in Hp |- *. destruct r; [|exact Hp].
    eapply Permutation_trans; [symmetry; apply Permutation_rev|exact Hp]. }
  split; [|split; [eapply perm_NoDup, H|exact H]].
  eapply Forall_impl; [|eapply perm_range, H]. cbn. intros i. pose proof (axis_len_nonneg a). lia.
Qed.

Lemma zlen_perm n p : index_permutation n p -> zlen p = Z.of_nat n.
Proof. intros H. unfold zlen. now rewrite (perm_len _ _ H). Qed.

Lemma elem_rev {A} (l : list A) k x : elem (rev l) k x <-> elem l (zlen l - 1 - k) x.
Proof.
  split.
  - intros H. pose proof (IndexProofs.elem_lt _ _ _ H) as R. destruct H as [H0 H]. unfold zlen in *. rewrite rev_length in R.
    split; [lia|]. rewrite nth_error_nth' with (d := x) in H by (rewrite rev_length; lia).
    rewrite rev_nth in H by lia. injection H as H.
    replace (Z.to_nat (Z.of_nat (length l) - 1 - k)) with (length l - S (Z.to_nat k))%nat by lia. rewrite (nth_error_nth' l x) by lia. now f_equal.
  - intros H. pose proof (IndexProofs.elem_lt _ _ _ H) as R. destruct H as [H0 H]. unfold zlen in *.
    split; [lia|]. rewrite nth_error_nth' with (d := x) by (rewrite rev_length; lia). f_equal. rewrite rev_nth by lia.
    replace (length l - S (Z.to_nat k))%nat with (Z.to_nat (Z.of_nat (length l) - 1 - k)) by lia. now apply nth_error_nth.
Qed.

Lemma argsort_sorted a r k k' i i' v v' : elem (axis_argsort env a r) k i -> elem (axis_argsort env a r) k' i' -> k < k' ->
  elem (axis_vals a) i v -> elem (axis_vals a) i' v' -> if r then (v' <= v)%Q else (v <= v')%Q.
Proof.
  destruct Henv as [Ha _]. destruct (Ha (axis_vals a)) as [_ Hs]. unfold axis_argsort. destruct r.
  - rewrite !elem_rev. intros H1 H2 Hlt Hv Hv'. eapply (Hs _ _ _ _ _ _ H2 H1); eauto. lia.
  - intros H1 H2 Hlt Hv Hv'. eapply (Hs _ _ _ _ _ _ H1 H2); eauto.
Qed.

Lemma sort_holds (x : var) D order : holds env x D -> length order = length (var_axes x) ->
  let inds := map (fun '(a, o) => sort_index a o) (combine (var_axes x) order) in
  let y := sort_var env junk x order in
  holds env y (fun p => D (gather inds p)) /\ var_shape y = var_shape x /\
  Forall2 (fun '(a, b) l => sliced a l b) (combine (var_axes x) (var_axes y)) inds.
Proof.
  intros Hx Ho inds y. pose proof Hx as [[_ Hsep] Hg].
  assert (Forall2 (fun a l => in_range (axis_len a) l) (var_axes x) inds /\ Forall (@NoDup Z) inds /\ map zlen inds = var_shape x /\
          map (fun '(a, o) => match o with Some r => axis_take env a (axis_argsort env a r) | None => a end) (combine (var_axes x) order) =
          map (fun '(a, ind) => axis_take env a ind) (combine (var_axes x) inds) /\
          Forall2 (fun '(a, b) l => sliced a l b) (combine (var_axes x) (map (fun '(a, ind) => axis_take env a ind) (combine (var_axes x) inds))) inds) as (Hr & Hnd & Hz & Hax & Hsl).
  { unfold inds, var_shape. clear -V env Henv junk Hg Ho. revert order Ho. induction (var_axes x) as [|a axs IH]; intros [|o order] Ho; try discriminate; [repeat split; constructor|].
    inversion Hg; subst. destruct (IH H2 order) as (I1 & I2 & I3 & I4 & I5); [cbn in Ho; lia|].
    assert (in_range (axis_len a) (sort_index a o) /\ NoDup (sort_index a o) /\ zlen (sort_index a o) = axis_len a /\
      match o with Some r => axis_take env a (axis_argsort env a r) | None => a end = axis_take env a (sort_index a o)) as (J1 & J2 & J3 & J4).
    { destruct o as [r|]; cbn [sort_index].
      - destruct (argsort_perm a r H1) as (K1 & K2 & K3). repeat split; auto. rewrite (zlen_perm _ _ K3). pose proof (axis_len_nonneg a). lia.
      - repeat split; [apply range_arange|apply NoDup_arange|apply zlen_arange, axis_len_nonneg|symmetry; now apply axis_take_all]. }
    cbn [combine map]. split; [constructor; auto|]. split; [constructor; auto|]. split; [f_equal; auto|]. split; [f_equal; auto|].
    constructor; [now apply sliced_self|exact I5]. }
  destruct (take_var x D inds Hx Hr) as (T1 & T2 & T3). unfold y, sort_var. rewrite Hax.
  split; [now apply T3|]. split; [now rewrite T1|exact Hsl].
Qed.

Lemma own_derived axes : separate axes ->
  Forall2 (derived axes) axes (combine (seq 0 (length axes)) (map (fun a => arange 0 (axis_len a) 1) axes)).
Proof.
  intros Hsep. apply Forall2_intro_nth; [rewrite combine_length, seq_length, map_length; lia|]. intros i a [k ind] Ha Hi.
  rewrite nth_error_combine, nth_error_seq, nth_error_map, Ha in Hi. destruct (Nat.ltb_spec i (length axes)); [|discriminate].
  cbn in Hi. injection Hi as <- <-. split; [apply range_arange|]. exists a. split; [exact Ha|]. split; [right; auto|].
  intros i' b' Hne Hb'. apply (Hsep i i' a b' Ha Hb'). auto.
Qed.

Lemma rename_getable (x : var) D : getable env x D -> getable env (rename_var env junk x) D.
Proof.
  intros Hx. pose proof Hx as [_ Hsep]. set (js := combine (seq 0 (length (var_axes x))) (map (fun a => arange 0 (axis_len a) 1) (var_axes x))).
  assert (map fst js = seq 0 (length (var_axes x))) as Hfst by (apply map_fst_combine; rewrite seq_length, map_length; reflexivity).
  destruct (wrapped_getable x D (var_axes x) js Hx (own_derived _ Hsep)) as [G _].
  { rewrite Hfst. apply seq_NoDup. }
  { rewrite Hfst. intros i Hi. apply in_seq. lia. }
  eapply getable_ext; [exact G|]. intros p Hp. unfold derived_data. f_equal. unfold js.
  rewrite <- (map_length (fun a => arange 0 (axis_len a) 1) (var_axes x)) at 1.
  pose proof (Forall2_len _ _ _ Hp) as E. unfold var_shape in E. rewrite map_length in E. cbn in E.
  rewrite gather_combine_seq by (rewrite map_length; lia). now apply gather_axis_aranges.
Qed.
Lemma rename_holds (x : var) D : holds env x D -> holds env (rename_var env junk x) D.
Proof. intros [Hx Hg]. split; [now apply rename_getable|exact Hg]. Qed.

(** ** transpose *)
Lemma nth_index_of j l d : In j l -> nth (index_of j l) l d = j /\ (index_of j l < length l)%nat.
Proof.
  induction l as [|x l IH]; [intros []|]. intros H. cbn. destruct (Nat.eqb_spec x j) as [->|E]; [split; [reflexivity|lia]|].
  destruct H as [H|H]; [congruence|]. destruct (IH H). split; [assumption|lia].
Qed.
Lemma index_of_nth l : NoDup l -> forall i d, (i < length l)%nat -> index_of (nth i l d) l = i.
Proof.
  induction 1 as [|x l Hn Hd IH]; intros i d Hi; [cbn in Hi; lia|]. destruct i as [|i]; cbn; [now rewrite Nat.eqb_refl|].
  cbn in Hi. destruct (Nat.eqb_spec x (nth i l d)) as [E|E]; [|f_equal; apply IH; lia]. exfalso. apply Hn. rewrite E. apply nth_In. lia.
Qed.

Lemma transpose_core (x : var) D alist B : getable env x D -> Permutation alist (seq 0 (length (var_axes x))) ->
  Forall2 (fun i b => nth_error (var_axes x) i = Some b) alist B ->
  exists D', (getable env (wrapped env junk x B) D' /\ (Forall good_axis (var_axes x) -> holds env (wrapped env junk x B) D')) /\
    forall p, position (var_shape x) p -> D' (map (coordinate p) alist) = D p.
Proof.
  intros Hx HP HB. pose proof Hx as [_ Hsep]. set (n := length (var_axes x)) in *.
  assert (NoDup alist) as Hnd by (eapply Permutation_NoDup; [symmetry; exact HP|apply seq_NoDup]).
  assert (forall j, (j < n)%nat -> In j alist) as Hin by (intros j Hj; eapply Permutation_in; [symmetry; exact HP|apply in_seq; lia]).
  assert (length alist = n) as Hal by (rewrite (Permutation_length HP); apply seq_length).
  pose proof (Forall2_len _ _ _ HB) as HBl.
  set (js := map (fun '(j, a) => (index_of j alist, arange 0 (axis_len a) 1)) (combine (seq 0 n) (var_axes x))).
  assert (map fst js = map (fun j => index_of j alist) (seq 0 n)) as Hfst.
  { unfold js. rewrite map_map. rewrite <- (map_fst_combine (seq 0 n) (var_axes x)) at 2 by apply seq_length. rewrite map_map. apply map_ext. now intros [j a]. }
  assert (Forall2 (derived B) (var_axes x) js) as Hjs.
  { apply Forall2_intro_nth; [unfold js; rewrite map_length, combine_length, seq_length; lia|]. intros j a [i ind] Ha Hj.
    unfold js in Hj. rewrite nth_error_map, nth_error_combine, nth_error_seq, Ha in Hj.
    destruct (Nat.ltb_spec j n) as [Hjn|]; [|discriminate]. cbn in Hj. injection Hj as <- <-.
    destruct (nth_index_of j alist 0%nat (Hin j Hjn)) as [E1 E2].
    split; [apply range_arange|]. exists a. cbn [fst snd]. split; [|split].
    - destruct (nth_error B (index_of j alist)) as [b|] eqn:Eb; [|apply nth_error_None in Eb; lia].
      assert (nth_error alist (index_of j alist) = Some j) as Ej by (rewrite <- E1 at 2; now apply nth_error_nth').
      pose proof (Forall2_nth_error _ _ _ _ _ _ HB Ej Eb) as H. cbn in H. congruence.
    - right. auto.
    - intros i' b' Hne Hb'. destruct (nth_error alist i') as [j'|] eqn:Ej'; [|apply nth_error_None in Ej'; assert (nth_error B i' <> None) as Hx' by congruence; apply nth_error_Some in Hx'; lia].
      pose proof (Forall2_nth_error _ _ _ _ _ _ HB Ej' Hb') as H. cbn in H. apply (Hsep j j' a b' Ha H). intros <-.
      apply Hne. rewrite <- (nth_error_nth _ _ 0%nat Ej'). symmetry. apply index_of_nth; [exact Hnd|]. apply nth_error_Some. congruence. }
  destruct (wrapped_getable x D B js Hx Hjs) as [G0 G].
  { rewrite Hfst. apply NoDup_nth_error. intros i j Hi E. rewrite map_length, seq_length in Hi. rewrite !nth_error_map, !nth_error_seq in E.
    destruct (Nat.ltb_spec i n); [|lia]. destruct (Nat.ltb_spec j n); [|discriminate]. cbn in E. injection E as E.
    destruct (nth_index_of i alist 0%nat) as [E1 _]; [now apply Hin|]. destruct (nth_index_of j alist 0%nat) as [E2 _]; [now apply Hin|]. congruence. }
  { rewrite Hfst. intros i Hi. rewrite <- HBl in Hi. apply in_map_iff. exists (nth i alist 0%nat). split; [now apply index_of_nth|].
    eapply Permutation_in; [exact HP|]. now apply nth_In. }
  exists (derived_data D js). split.
  - split; [exact G0|]. intros Hg. apply G; [exact Hg|]. apply Forall_forall. intros [i ind] H. unfold js in H. apply in_map_iff in H as ([j a] & E & _). injection E as <- <-. apply NoDup_arange.
  - intros p Hp. unfold derived_data. f_equal. unfold js. rewrite map_map.
    pose proof (Forall2_len _ _ _ Hp) as Hpl. unfold var_shape in Hpl. rewrite map_length in Hpl. fold n in Hpl.
    apply nth_error_ext'. intros j. rewrite nth_error_map, nth_error_combine, nth_error_seq.
    destruct (Nat.ltb_spec j n) as [Hj|Hj]; [|symmetry; apply nth_error_None; lia].
    destruct (nth_error (var_axes x) j) as [a|] eqn:Ea; [|apply nth_error_None in Ea; fold n in Ea; lia]. cbn [option_map].
    destruct (nth_index_of j alist 0%nat (Hin j Hj)) as [E1 E2].
    cbv beta iota zeta. cbn [Nat.add].
    assert (nth (index_of j alist) (map (coordinate p) alist) 0 = coordinate p j) as ->
      by (rewrite (nth_indep _ 0 (coordinate p 0)) by (rewrite map_length; exact E2); now rewrite map_nth, E1).
    assert (0 <= nth j p 0 < axis_len a) as Hb.
    { eapply position_nth; [exact Hp|]. unfold var_shape. now rewrite nth_error_map, Ea. }
    unfold coordinate. rewrite (znth_elem _ _ (nth j p 0)) by (apply elem_arange01; lia). symmetry. apply nth_error_nth'. lia.
Qed.

Lemma NoDup_app_intro {A} (l l' : list A) : NoDup l -> NoDup l' -> (forall x, In x l -> ~ In x l') -> NoDup (l ++ l').
Proof.
  induction 1 as [|x l Hn Hd IH]; intros Hd' H; [exact Hd'|]. cbn. constructor.
  - rewrite in_app_iff. intros [K|K]; [contradiction|]. exact (H x (or_introl eq_refl) K).
  - apply IH; [assumption|]. intros y Hy. apply H. now right.
Qed.

Lemma transpose_list n axes : NoDup axes -> Forall (fun a => (a < n)%nat) axes ->
  Permutation (axes ++ filter (fun a => negb (existsb (Nat.eqb a) axes)) (seq 0 n)) (seq 0 n).
Proof.
  intros Hnd Hlt. apply NoDup_Permutation.
  - apply NoDup_app_intro; [exact Hnd|apply NoDup_filter, seq_NoDup|].
    intros a Ha H. apply filter_In in H as [_ H]. rewrite (proj2 (existsb_In a axes) Ha) in H. discriminate.
  - apply seq_NoDup.
  - intros a. rewrite in_app_iff, filter_In, in_seq. split.
    + intros [H|[H _]]; [|lia]. apply (proj1 (Forall_forall _ _) Hlt) in H. lia.
    + intros H. destruct (existsb (Nat.eqb a) axes) eqn:E; [left; now apply existsb_In|right]. split; [lia|reflexivity].
Qed.

Lemma transpose_holds (x : var) D axes y : getable env x D -> NoDup axes -> transpose_var env junk x axes = Some y ->
  let alist := axes ++ filter (fun a => negb (existsb (Nat.eqb a) axes)) (seq 0 (length (var_axes x))) in
  Permutation alist (seq 0 (length (var_axes x))) /\
  Forall2 (fun i b => nth_error (var_axes x) i = Some b) alist (var_axes y) /\
  exists D', (getable env y D' /\ (Forall good_axis (var_axes x) -> holds env y D')) /\
    forall p, position (var_shape x) p -> D' (map (coordinate p) alist) = D p.
Proof.
  intros Hx Hnd. unfold transpose_var. destruct axes as [|a0 axes]; [discriminate|]. set (axs := a0 :: axes) in *.
  destruct (forallb _ axs) eqn:Elt; [|discriminate]. set (n := length (var_axes x)).
  assert (Forall (fun a => (a < n)%nat) axs) as Hlt.
  { apply Forall_forall. intros a Ha. apply (proj1 (forallb_forall _ _) Elt) in Ha. now apply Nat.ltb_lt. }
  pose proof (transpose_list n axs Hnd Hlt) as HP. cbv zeta. set (alist := axs ++ _) in *.
  destruct (list_eq_dec Nat.eq_dec alist (seq 0 n)) as [E|E].
  - intros [= <-]. split; [exact HP|]. split.
    + rewrite E. apply Forall2_intro_nth; [apply seq_length|]. intros i j b Hj Hb. rewrite nth_error_seq in Hj.
      destruct (Nat.ltb_spec i n); [|discriminate]. injection Hj as <-. exact Hb.
    + exists D. split; [split; [exact Hx|now split]|]. intros p Hp. f_equal. rewrite E. unfold coordinate.
      pose proof (Forall2_len _ _ _ Hp) as Hpl. unfold var_shape in Hpl. rewrite map_length in Hpl. fold n in Hpl. rewrite Hpl.
      clear. induction p as [|z p IH]; [reflexivity|]. cbn [length seq map nth]. f_equal. rewrite <- seq_shift, map_map. exact IH.
  - destruct (sequence _) as [l|] eqn:Es; [|discriminate]. intros [= <-]. apply sequence_Forall2 in Es.
    split; [exact HP|]. split; [exact Es|]. now apply transpose_core.
Qed.

Lemma transpose_some (x : var) axes : axes <> [] -> Forall (fun a => (a < length (var_axes x))%nat) axes ->
  exists y, transpose_var env junk x axes = Some y.
Proof.
  intros Hne Hlt. unfold transpose_var. destruct axes as [|a0 axes]; [congruence|]. set (axs := a0 :: axes) in *.
  assert (forallb (fun a => Nat.ltb a (length (var_axes x))) axs = true) as ->.
  { apply forallb_forall. intros a Ha. apply Nat.ltb_lt. now apply (proj1 (Forall_forall _ _) Hlt). }
  destruct (list_eq_dec _ _ _); [eauto|]. destruct (sequence _) as [l|] eqn:Es; [eauto|]. exfalso.
  assert (forall l : list nat, Forall (fun a => (a < length (var_axes x))%nat) l -> sequence (map (fun i => nth_error (var_axes x) i) l) <> None) as H.
  { induction 1 as [|a l Ha Hl IH]; cbn; [discriminate|]. destruct (nth_error (var_axes x) a) eqn:E; [|apply nth_error_None in E; lia].
    intros K. apply IH. destruct (sequence (map (fun i => nth_error (var_axes x) i) l)); [discriminate K|reflexivity]. }
  apply (H _) in Es; [exact Es|]. apply Forall_app. split; [exact Hlt|]. apply Forall_forall. intros a Ha. apply filter_In in Ha as [Ha _]. apply in_seq in Ha. lia.
Qed.

(** ** elementwise operations, renamed axes *)
Lemma map_getable {W} (f : V -> W) (x : var) D : getable env x D -> getable env (map_var env junk f x) (fun p => f (D p)).
Proof.
  intros Hx. split; [|apply Hx]. cbn. intros inds Hr.
  destruct (getable_get x D inds Hx) as (r & Hget & Hs & Hv).
  { eapply Forall2_impl; [|exact Hr]. intros a l H. apply H. }
  cbn in Hget. rewrite Hget. eexists. split; [reflexivity|]. split; [exact Hs|]. cbn. intros p Hp. now rewrite Hv.
Qed.

Lemma replace_getable (x : var) D newaxes y : getable env x D -> separate newaxes -> replace_axes env junk x newaxes = Some y ->
  var_axes y = newaxes /\ map axis_len newaxes = var_shape x /\ getable env y D.
Proof.
  intros Hx Hsep. unfold replace_axes. destruct (Nat.eqb_spec (length newaxes) (length (var_axes x))) as [El|]; [|discriminate].
  destruct (forallb _ _) eqn:Ef; [|discriminate]. cbn [andb]. intros [= <-]. cbn [var_axes].
  assert (map axis_len newaxes = var_shape x) as Es.
  { unfold var_shape. clear -El Ef. revert newaxes El Ef. induction (var_axes x) as [|b bs IH]; intros [|a news] El Ef; try discriminate; [reflexivity|].
    cbn in *. apply andb_true_iff in Ef as [E1 E2]. f_equal; [lia|]. apply IH; [lia|assumption]. }
  split; [reflexivity|]. split; [exact Es|]. split; [|exact Hsep].
  cbn. intros inds Hr. apply (getable_get x D inds Hx).
  unfold var_shape in Es. clear -Hr Es. revert inds Hr. generalize dependent (var_axes x). induction newaxes as [|a news IH]; intros [|b bs] Es inds Hr; try discriminate; inversion Hr; subst; constructor.
  - cbn in Es. injection Es as E _. destruct H1 as (_ & H & _). cbn in H. now rewrite <- E.
  - eapply IH; [|assumption]. cbn in Es. congruence.
Qed.


(** ** extend *)
Lemma nth_error_insert {A} (l new : list A) pos i : (pos <= length l)%nat ->
  nth_error (firstn pos l ++ new ++ skipn pos l) i =
  if Nat.ltb i pos then nth_error l i else if Nat.ltb i (pos + length new) then nth_error new (i - pos) else nth_error l (i - length new).
Proof.
  intros Hp. assert (length (firstn pos l) = pos) as E by (rewrite firstn_length; lia).
  destruct (Nat.ltb_spec i pos).
  - rewrite nth_error_app1 by lia. rewrite <- (firstn_skipn pos l) at 2. now rewrite nth_error_app1 by lia.
  - rewrite nth_error_app2 by lia. rewrite E. destruct (Nat.ltb_spec i (pos + length new)).
    + now rewrite nth_error_app1 by lia.
    + rewrite nth_error_app2 by lia. rewrite <- (firstn_skipn pos l) at 2. rewrite nth_error_app2 by lia. f_equal. lia.
Qed.

Definition shifted (pos k j : nat) : nat := if Nat.ltb j pos then j else (j + k)%nat.

Lemma nth_error_shifted {A} (l new : list A) pos j : (pos <= length l)%nat ->
  nth_error (firstn pos l ++ new ++ skipn pos l) (shifted pos (length new) j) = nth_error l j.
Proof.
  intros Hp. rewrite nth_error_insert by exact Hp. unfold shifted. destruct (Nat.ltb_spec j pos).
  - destruct (Nat.ltb_spec j pos); [reflexivity|lia].
  - destruct (Nat.ltb_spec (j + length new) pos); [lia|]. destruct (Nat.ltb_spec (j + length new) (pos + length new)); [lia|]. f_equal. lia.
Qed.

Lemma extend_holds (x : var) D pos newaxes : getable env x D -> (pos <= length (var_axes x))%nat ->
  separate newaxes -> (forall a b, In a (var_axes x) -> In b newaxes -> unrelated a b /\ unrelated b a) ->
  let y := extend_var env junk x pos newaxes in
  getable env y (fun q => D (firstn pos q ++ skipn (pos + length newaxes) q)) /\
  (Forall good_axis (var_axes x) -> Forall good_axis newaxes -> holds env y (fun q => D (firstn pos q ++ skipn (pos + length newaxes) q))).
Proof.
  intros Hx Hpos Hsn Hun y. pose proof Hx as [_ Hsep].
  set (B := firstn pos (var_axes x) ++ newaxes ++ skipn pos (var_axes x)).
  set (k := length newaxes). set (n := length (var_axes x)).
  assert (length B = (n + k)%nat) as HBl.
  { unfold B. rewrite !app_length, firstn_length, skipn_length. unfold n, k. lia. }
  set (js := map (fun '(j, a) => (shifted pos k j, arange 0 (axis_len a) 1)) (combine (seq 0 n) (var_axes x))).
  assert (map fst js = map (shifted pos k) (seq 0 n)) as Hfst.
  { unfold js. rewrite map_map. rewrite <- (map_fst_combine (seq 0 n) (var_axes x)) at 2 by apply seq_length. rewrite map_map. apply map_ext. now intros [j a]. }
  assert (Forall2 (derived B) (var_axes x) js) as Hjs.
  { apply Forall2_intro_nth; [unfold js; rewrite map_length, combine_length, seq_length; unfold n; lia|]. intros j a [i ind] Ha Hj.
    unfold js in Hj. rewrite nth_error_map, nth_error_combine, nth_error_seq, Ha in Hj.
    destruct (Nat.ltb_spec j n) as [Hjn|]; [|discriminate]. cbn in Hj. injection Hj as <- <-.
    split; [apply range_arange|]. exists a. cbn [fst snd]. split; [|split].
    - unfold B, k. rewrite nth_error_shifted by exact Hpos. exact Ha.
    - right. auto.
    - intros i' b' Hne Hb'. unfold B in Hb'. rewrite nth_error_insert in Hb' by exact Hpos. fold k in Hb'. unfold shifted in Hne.
      destruct (Nat.ltb_spec i' pos) as [H1|H1]; [|destruct (Nat.ltb_spec i' (pos + k)) as [H2|H2]].
      + apply (Hsep j i' a b' Ha Hb'). intros <-. apply Hne. destruct (Nat.ltb_spec j pos); lia.
      + refine (proj1 (Hun a b' _ _)); eapply nth_error_In; eassumption.
      + apply (Hsep j (i' - k)%nat a b' Ha Hb'). intros ->. apply Hne. destruct (Nat.ltb_spec (i' - k) pos); lia. }
  assert (NoDup (map fst js)) as Hnd.
  { rewrite Hfst. apply FinFun.Injective_map_NoDup; [|apply seq_NoDup]. intros i j H. unfold shifted in H. destruct (Nat.ltb_spec i pos), (Nat.ltb_spec j pos); lia. }
  assert (getable env y (fun q => D (firstn pos q ++ skipn (pos + k) q))) as G.
  { split.
    - cbn. fold B. intros L Hr.
      destruct (get_derived B L x D js Hx) as (r & Hget & Hs & Hv); auto.
      { eapply Forall2_impl; [|exact Hr]. intros a l (H1 & H2 & _). auto. }
      pose proof (Forall2_len _ _ _ Hr) as HL.
      cbn in Hget. rewrite Hget. change (vshape (view_of_inds B L)) with (map zlen L). unfold broadcast.
      rewrite Hs, length_outshape, Nat.eqb_refl.
      assert (forallb (fun '(m, n) => (m =? n) || (m =? 1)) (combine (outshape (map zlen L) (map fst js)) (map zlen L)) = true) as ->.
      { apply forallb_forall. intros [m z] Hin. apply In_nth_error in Hin as [i Hi]. unfold outshape in Hi.
        rewrite nth_error_combine, nth_error_map, nth_error_combine, nth_error_seq in Hi.
        destruct (Nat.ltb_spec i (length (map zlen L))); [|destruct (nth_error (map zlen L) i); discriminate].
        destruct (nth_error (map zlen L) i); [|discriminate]. cbn in Hi. injection Hi as <- <-.
        destruct (existsb _ _); [now rewrite Z.eqb_refl|]. apply orb_true_r. }
      cbn [andb]. eexists. split; [reflexivity|]. split; [reflexivity|]. cbn [val]. intros p Hp.
      pose proof (Forall2_len _ _ _ Hp) as Hpl. rewrite map_length in Hpl.
      set (p' := map (fun '(m, z) => if m =? 1 then 0 else z) (combine (outshape (map zlen L) (map fst js)) p)).
      assert (length p' = length p) as Hp'l by (unfold p'; rewrite map_length, combine_length, length_outshape, map_length; lia).
      assert (forall i, (i < length p)%nat -> nth_error p' i = Some (if existsb (Nat.eqb i) (map fst js) then nth i p 0 else 0)) as Hp'.
      { intros i Hi. unfold p', outshape. rewrite nth_error_map, nth_error_combine, nth_error_map, nth_error_combine, nth_error_seq, map_length.
        destruct (Nat.ltb_spec i (length L)); [|lia]. rewrite nth_error_map. destruct (nth_error L i) as [l|] eqn:El; [|apply nth_error_None in El; lia].
        rewrite (nth_error_nth' p 0) by exact Hi. cbn. destruct (existsb _ _); [|reflexivity].
        destruct (Z.eqb_spec (zlen l) 1) as [E|]; [|reflexivity].
        assert (0 <= nth i p 0 < zlen l) as Hb by (eapply position_nth; [exact Hp|now rewrite nth_error_map, El]). f_equal. lia. }
      rewrite (Hv p').
      2:{ apply Forall2_intro_nth; [rewrite length_outshape, map_length; lia|]. intros i m z Hm Hz.
          assert (i < length p)%nat as Hi by (rewrite <- Hp'l; apply nth_error_Some; congruence).
          rewrite (Hp' i Hi) in Hz. injection Hz as <-. unfold outshape in Hm. rewrite nth_error_map, nth_error_combine, nth_error_seq, map_length in Hm.
          destruct (Nat.ltb_spec i (length L)); [|lia]. rewrite nth_error_map in Hm. destruct (nth_error L i) as [l|] eqn:El; [|discriminate]. cbn in Hm.
          destruct (existsb _ _); injection Hm as <-; [|lia]. eapply position_nth; [exact Hp|]. now rewrite nth_error_map, El. }
      unfold derived_data. f_equal. unfold js. rewrite map_map. apply nth_error_ext'. intros j.
      rewrite nth_error_map, nth_error_combine, nth_error_seq.
      assert (length (gather L p) = length p) as Hgl by (apply gather_length; lia).
      assert (nth_error (firstn pos (gather L p) ++ skipn (pos + k) (gather L p)) j = if Nat.ltb j n then nth_error (gather L p) (shifted pos k j) else None) as Hr'.
      { assert (length (firstn pos (gather L p)) = pos) as E by (rewrite firstn_length; lia).
        unfold shifted. destruct (Nat.ltb_spec j n) as [Hj|Hj].
        - destruct (Nat.ltb_spec j pos).
          + rewrite nth_error_app1 by lia. rewrite <- (firstn_skipn pos (gather L p)) at 2. now rewrite nth_error_app1 by lia.
          + rewrite nth_error_app2 by lia. rewrite E. rewrite <- (firstn_skipn (pos + k) (gather L p)) at 2.
            rewrite nth_error_app2 by (rewrite firstn_length; lia). f_equal. rewrite firstn_length. lia.
        - apply nth_error_None. rewrite app_length, skipn_length. lia. }
      rewrite Hr'. destruct (Nat.ltb_spec j n) as [Hj|Hj]; [|reflexivity].
      destruct (nth_error (var_axes x) j) as [a|] eqn:Ea; [|apply nth_error_None in Ea; fold n in Ea; lia].
      cbn [option_map]. cbv beta iota zeta. cbn [Nat.add].
      assert (shifted pos k j < length p)%nat as Hsh by (unfold shifted; destruct (Nat.ltb_spec j pos); lia).
      rewrite (nth_error_nth' (gather L p) 0) by lia. f_equal.
      rewrite !nth_gather by lia.
      assert (nth (shifted pos k j) p' 0 = nth (shifted pos k j) p 0) as ->.
      { rewrite (nth_error_nth _ _ 0 (Hp' _ Hsh)). rewrite (proj2 (existsb_In _ _)); [reflexivity|]. rewrite Hfst. apply in_map. apply in_seq. lia. }
      apply znth_elem, elem_arange01. split; [reflexivity|].
      assert (nth_error L (shifted pos k j) = Some (nth (shifted pos k j) L [])) as El by (apply nth_error_nth'; lia).
      assert (nth_error B (shifted pos k j) = Some a) as EB by (unfold B, k; now rewrite nth_error_shifted by exact Hpos).
      pose proof (Forall2_nth_error _ _ _ _ _ _ Hr EB El) as (_ & Hrange & _). cbn in Hrange.
      eapply in_range_elem; [exact Hrange|]. apply elem_znth. eapply position_nth; [exact Hp|]. now rewrite nth_error_map, El.
    - cbn. intros i j a b Ha Hb Hne. rewrite nth_error_insert in Ha, Hb by exact Hpos. fold k in Ha, Hb.
      destruct (Nat.ltb_spec i pos); [|destruct (Nat.ltb_spec i (pos + k))];
      (destruct (Nat.ltb_spec j pos); [|destruct (Nat.ltb_spec j (pos + k))]);
      try (eapply Hsep; [exact Ha|exact Hb|lia]); try (eapply Hsn; [exact Ha|exact Hb|lia]);
      try (refine (proj1 (Hun a b _ _)); eapply nth_error_In; eassumption);
      try (refine (proj2 (Hun b a _ _)); eapply nth_error_In; eassumption). }
  split; [exact G|]. intros Hg Hgn. split; [exact G|]. cbn. apply Forall_app. split; [|apply Forall_app; split; [exact Hgn|]].
  - rewrite <- (firstn_skipn pos (var_axes x)) in Hg. apply Forall_app in Hg. tauto.
  - rewrite <- (firstn_skipn pos (var_axes x)) in Hg. apply Forall_app in Hg. tauto.
Qed.

(** ** squeeze *)
Fixpoint refill {A} (d : A) (gone : list bool) (q : list A) : list A :=
  match gone with
  | [] => []
  | true :: g => d :: refill d g q
  | false :: g => match q with [] => [] | x :: q => x :: refill d g q end
  end.

Lemma dropped_refill {A} (d : A) gone q : length q = length (dropped gone gone) -> dropped gone (refill d gone q) = q.
Proof.
  revert q. induction gone as [|[] g IH]; intros q Hq; cbn in *.
  - now destruct q.
  - now apply IH.
  - destruct q as [|x q]; [discriminate|]. cbn. f_equal. apply IH. cbn in Hq; injection Hq as Hq; exact Hq.
Qed.

Lemma dropped_map {A B} (f : A -> B) gone l : dropped gone (map f l) = map f (dropped gone l).
Proof. revert l. induction gone as [|[] g IH]; intros [|x l]; cbn; try reflexivity; [apply IH|now rewrite IH]. Qed.

Lemma squeeze_axes (axes : list axis) (f : nat -> bool) : forall k,
  map snd (filter (fun '(i, _) => negb (f i)) (combine (seq k (length axes)) axes)) = dropped (map f (seq k (length axes))) axes.
Proof.
  induction axes as [|a axes IH]; intros k; [reflexivity|]. cbn [length seq combine filter map dropped].
  destruct (f k); cbn [negb map]; [apply IH|]. cbn. f_equal. apply IH.
Qed.

Lemma separate_In axes a b : separate axes -> In a axes -> In b axes -> b <> a -> unrelated a b.
Proof.
  intros H Ha Hb Hne. apply In_nth_error in Ha as [i Ha]. apply In_nth_error in Hb as [j Hb]. apply (H i j a b Ha Hb). intros ->. congruence.
Qed.
Lemma separate_NoDup axes : separate axes -> NoDup axes.
Proof.
  intros H. apply NoDup_nth_error. intros i j Hi E. destruct (Nat.eq_dec i j) as [|Hne]; [assumption|]. exfalso.
  destruct (nth_error axes i) as [a|] eqn:Ea; [|apply nth_error_None in Ea; lia]. symmetry in E.
  pose proof (H i j a a Ea E Hne) as U. apply unrelated_same in U. now rewrite same_refl in U.
Qed.

Lemma map_axis_own K I a i l : length I = length K -> nth_error K i = Some a -> nth_error I i = Some l -> NoDup K ->
  (forall b, In b K -> b <> a -> unrelated a b) -> in_range (axis_len a) l ->
  forall strict, map_axis ops (view_of_inds K I) strict a = Some (simplify l, Some i) /\ expand (simplify l) (axis_len a) = Some l.
Proof.
  intros HL Ha Hl Hnd Hun Hr strict. unfold map_axis. cbn [vaxes view_of_inds].
  rewrite (proj2 (find_first_spec _ K i tt)).
  - cbn [vslices view_of_inds]. rewrite (nth_simplify _ _ _ Hl). split; [reflexivity|]. apply expand_simplify. eapply in_range_nonneg, Hr.
  - split; [exists a; split; [exact Ha|]; cbn; now rewrite same_refl|].
    intros j b Hj Hb. cbn. rewrite unrelated_same; [reflexivity|]. apply Hun; [eapply nth_error_In, Hb|].
    intros ->. rewrite NoDup_nth_error in Hnd. assert (j = i) as -> by (apply Hnd; [apply nth_error_Some; congruence|congruence]). lia.
Qed.

Lemma map_axis_other K I a : Forall2 (fun b l => in_range (axis_len b) l) K I ->
  (forall b, In b K -> unrelated a b) -> map_axis ops (view_of_inds K I) false a = Some (whole, None).
Proof.
  intros HKI Hun. unfold map_axis. rewrite subaxes_eq by exact HKI. cbn [vaxes view_of_inds].
  rewrite (find_first_none _ K). 2:{ intros b Hb. cbn. now rewrite unrelated_same by auto. }
  rewrite (find_first_none). { reflexivity. }
  intros b Hb. apply in_map_iff in Hb as ([c l] & <- & Hc). apply in_combine_l in Hc. cbn. apply unrelated_map, take_unrelated. auto.
Qed.

Lemma squeeze_map K I : length I = length K -> NoDup K -> Forall2 (fun b l => l <> [] /\ in_range (axis_len b) l) K I ->
  forall gone axes inds pre preI,
  K = pre ++ dropped gone axes -> I = preI ++ inds -> length pre = length preI -> length gone = length axes ->
  (forall a b, In a axes -> In b K -> b <> a -> unrelated a b) ->
  Forall2 (fun g a => g = true -> axis_len a = 1 /\ ~ In a K) gone axes ->
  Forall2 (fun a m => exists sl oi, map_axis ops (view_of_inds K I) false a = Some (sl, oi) /\ expand sl (axis_len a) = Some m /\
                                    m <> [] /\ in_range (axis_len a) m) axes (refill [0] gone inds).
Proof.
  intros HL Hnd HKI. induction gone as [|g gone IH]; intros [|a axes] inds pre preI HK HI Hpre Hlen Hun Hgone; try discriminate; [constructor|].
  assert ((g = true -> axis_len a = 1 /\ ~ In a K) /\ Forall2 (fun g a => g = true -> axis_len a = 1 /\ ~ In a K) gone axes) as [Hg Hgone'] by (inversion Hgone; auto).
  destruct g.
  - cbn [refill]. destruct (Hg eq_refl) as [Hone Hni]. constructor.
    + exists whole, None. split; [|split; [|split; [discriminate|]]].
      * apply map_axis_other; [eapply Forall2_impl; [|exact HKI]; cbn; tauto|]. intros b Hb. apply Hun; [now left|exact Hb|congruence].
      * unfold whole. cbn. rewrite Hone. reflexivity.
      * constructor; [lia|constructor].
    + apply (IH axes inds pre preI); auto. intros a' b' Ha'. apply Hun. now right.
  - cbn [dropped] in HK. destruct inds as [|l inds].
    { exfalso. apply (f_equal (@length _)) in HK, HI. rewrite app_length in HK, HI. cbn in HK, HI. lia. }
    cbn [refill]. 
    assert (nth_error K (length pre) = Some a) as EK by (rewrite HK, nth_error_app2, Nat.sub_diag by lia; reflexivity).
    assert (nth_error I (length pre) = Some l) as EI by (rewrite HI, Hpre, nth_error_app2, Nat.sub_diag by lia; reflexivity).
    pose proof (Forall2_nth_error _ _ _ _ _ _ HKI EK EI) as [Hne Hr].
    constructor.
    + exists (simplify l), (Some (length pre)).
      destruct (map_axis_own K I a (length pre) l HL EK EI Hnd) with (strict := false) as [E1 E2]; auto.
      { intros b Hb Hneq. apply Hun; [now left|exact Hb|exact Hneq]. }
    + apply (IH axes inds (pre ++ [a]) (preI ++ [l])); auto.
      * rewrite <- app_assoc. exact HK.
      * rewrite <- app_assoc. exact HI.
      * rewrite !app_length. cbn. lia.
      * intros a' b' Ha'. apply Hun. now right.
Qed.

Lemma refill_map {A B} (f : A -> B) d gone l : map f (refill d gone l) = refill (f d) gone (map f l).
Proof. revert l. induction gone as [|[] g IH]; intros l; cbn; [reflexivity|now rewrite IH|]. destruct l; cbn; [reflexivity|now rewrite IH]. Qed.

Lemma prod_refill gone s : length s = length (dropped gone gone) -> prod (refill 1 gone s) = prod s.
Proof.
  revert s. induction gone as [|[] g IH]; intros s Hs; cbn [refill dropped length] in *.
  - now destruct s.
  - change (prod (1 :: refill 1 g s)) with (1 * prod (refill 1 g s)). rewrite IH by exact Hs. lia.
  - destruct s as [|n s]; [reflexivity|]. cbn in Hs. change (prod (n :: refill 1 g s)) with (n * prod (refill 1 g s)). rewrite IH by (injection Hs; auto). reflexivity.
Qed.
Lemma refill_position gone s q : length s = length (dropped gone gone) -> position s q ->
  position (refill 1 gone s) (refill 0 gone q) /\ ravel (refill 1 gone s) (refill 0 gone q) = ravel s q.
Proof.
  revert s q. induction gone as [|[] g IH]; intros s q Hs Hq; cbn [refill dropped length] in *.
  - destruct s; [|discriminate]. inversion Hq. split; [constructor|reflexivity].
  - destruct (IH s q Hs Hq) as [I1 I2]. split; [constructor; [lia|exact I1]|]. cbn [ravel]. rewrite I2. lia.
  - destruct s as [|n s]; [discriminate|]. inversion Hq; subst. cbn in Hs. destruct (IH s l') as [I1 I2]; [injection Hs; auto|assumption|].
    split; [constructor; assumption|]. cbn [ravel]. rewrite I2, prod_refill by (injection Hs; auto). reflexivity.
Qed.
Lemma gather_refill gone inds q : length inds = length (dropped gone gone) -> length q = length inds ->
  gather (refill [0] gone inds) (refill 0 gone q) = refill 0 gone (gather inds q).
Proof.
  revert inds q. induction gone as [|[] g IH]; intros inds q Hs Hq; cbn [refill dropped length gather] in *.
  - reflexivity.
  - rewrite IH by assumption. reflexivity.
  - destruct inds as [|l inds]; [discriminate|]. destruct q as [|x q]; [discriminate|]. cbn in Hs, Hq. cbn [gather]. f_equal. apply IH; [injection Hs; auto|lia].
Qed.

Lemma dropped_In {A} gone (l : list A) x : In x (dropped gone l) -> In x l.
Proof. revert l. induction gone as [|[] g IH]; intros [|y l]; cbn; auto; intros []; auto. Qed.
Lemma dropped_NoDup {A} gone (l : list A) : NoDup l -> NoDup (dropped gone l).
Proof.
  revert l. induction gone as [|[] g IH]; intros [|y l] H; cbn; try constructor; inversion H; subst; auto. intros K. apply dropped_In in K. contradiction.
Qed.
Lemma dropped_not_In {A} gone (l : list A) : NoDup l -> length gone = length l -> Forall2 (fun g a => g = true -> ~ In a (dropped gone l)) gone l.
Proof.
  intros Hnd. enough (forall K, (forall x, In x K -> ~ In x l) -> length gone = length l -> Forall2 (fun g a => g = true -> ~ In a (K ++ dropped gone l)) gone l) as H by (apply (H []); intros ? []).
  revert l Hnd. induction gone as [|g gone IH]; intros [|y l] Hnd K HK Hl; try discriminate; [constructor|]. inversion Hnd as [|? ? Hn Hnd']; subst.
  constructor.
  - intros ->. cbn. rewrite in_app_iff. intros [H|H]; [apply (HK y H); now left|]. apply dropped_In in H. contradiction.
  - destruct g; cbn [dropped].
    + apply IH; auto. intros x Hx Hx'. apply (HK x Hx). now right.
    + specialize (IH l Hnd' (K ++ [y])). rewrite <- app_assoc in IH. apply IH; [|cbn in Hl; lia].
      intros x Hx Hx'. apply in_app_iff in Hx as [Hx|[<-|[]]]; [apply (HK x Hx); now right|contradiction].
Qed.
Lemma dropped_length {A B} gone (l : list A) (l' : list B) : length l = length l' -> length (dropped gone l) = length (dropped gone l').
Proof. revert l l'. induction gone as [|[] g IH]; intros [|x l] [|x' l'] H; try discriminate; cbn in *; auto. Qed.

Lemma squeeze_core (x : var) D gone : getable env x D -> length gone = length (var_axes x) ->
  Forall2 (fun g a => g = true -> axis_len a = 1) gone (var_axes x) ->
  let y := Var (dropped gone (var_axes x)) (GetView (fun v => match get v x false false with Some values => reshape values (vshape v) | None => None end)) in
  getable env y (fun q => D (refill 0 gone q)).
Proof.
  intros Hx Hl Hone y. pose proof Hx as [Hrep Hsep]. pose proof (separate_NoDup _ Hsep) as Hnd.
  set (K := dropped gone (var_axes x)) in *.
  assert (length K = length (dropped gone gone)) as HKl by (apply dropped_length; auto).
  split.
  - cbn. intros I Hr.
    assert (Forall2 (fun b l => l <> [] /\ in_range (axis_len b) l) K I) as HKI by (eapply Forall2_impl; [|exact Hr]; intros a l (H1 & H2 & _); auto).
    pose proof (Forall2_len _ _ _ HKI) as HI.
    destruct (get_raw ops junk (view_of_inds K I) false x D (refill [0] gone I) Hrep) as (r & Hget & Hs & Hv).
    { eapply (squeeze_map K I) with (pre := []) (preI := []); auto.
      - unfold K. now apply dropped_NoDup.
      - intros a b Ha Hb Hne. eapply separate_In; eauto. eapply dropped_In, Hb.
      - apply Forall2_intro_nth; [exact Hl|]. intros i g a Hgi Hai Eg. split.
        + exact (Forall2_nth_error _ _ _ _ _ _ Hone Hgi Hai Eg).
        + exact (Forall2_nth_error _ _ _ _ _ _ (dropped_not_In gone _ Hnd Hl) Hgi Hai Eg). }
    cbn in Hget. rewrite Hget. change (vshape (view_of_inds K I)) with (map zlen I). unfold reshape.
    rewrite Hs, refill_map. change (zlen [0]) with 1.
    assert (length (map zlen I) = length (dropped gone gone)) as HIl by (rewrite map_length; lia).
    rewrite prod_refill, Z.eqb_refl by exact HIl. eexists. split; [reflexivity|]. split; [reflexivity|]. cbn [val]. intros q Hq.
    destruct (refill_position gone _ q HIl Hq) as [P1 P2]. rewrite <- P2, unravel_ravel by exact P1.
    rewrite Hv by (rewrite refill_map; exact P1). f_equal. apply gather_refill; [rewrite map_length in HIl; exact HIl|].
    pose proof (Forall2_len _ _ _ Hq) as E. rewrite map_length in E. lia.
  - cbn. intros i j a b Ha Hb Hne. apply (separate_In _ _ _ Hsep); try (eapply dropped_In, nth_error_In; eassumption).
    intros ->. apply Hne. pose proof (dropped_NoDup gone _ Hnd) as HndK. rewrite NoDup_nth_error in HndK. change (nth_error (dropped gone (var_axes x)) i = Some a) in Ha. change (nth_error (dropped gone (var_axes x)) j = Some a) in Hb.
    apply HndK; [apply nth_error_Some; rewrite Ha; discriminate|now rewrite Ha, Hb].
Qed.

Definition gone_flags (x : var) (iaxes : list nat) : list bool :=
  map (fun '(i, a) => (match iaxes with [] => true | _ => existsb (Nat.eqb i) iaxes end) && (axis_len a =? 1)) (combine (seq 0 (length (var_axes x))) (var_axes x)).

Lemma squeeze_holds (x : var) D iaxes : getable env x D ->
  let y := squeeze_var env junk x iaxes in
  var_axes y = dropped (gone_flags x iaxes) (var_axes x) /\ getable env y (fun q => D (refill 0 (gone_flags x iaxes) q)).
Proof.
  intros Hx. cbv zeta. set (n := length (var_axes x)).
  set (f := fun i => existsb (Nat.eqb i) match iaxes with [] => seq 0 n | _ => iaxes end && (axis_len (nth i (var_axes x) (NonCoord (MkNonCoord [] [] []))) =? 1)).
  assert (map f (seq 0 n) = gone_flags x iaxes) as E.
  { unfold gone_flags. apply nth_error_ext'. intros i. rewrite !nth_error_map, nth_error_combine, !nth_error_seq. fold n.
    destruct (Nat.ltb_spec i n) as [Hi|Hi]; [|reflexivity]. destruct (nth_error (var_axes x) i) as [a|] eqn:Ea; [|apply nth_error_None in Ea; fold n in Ea; lia].
    cbn. unfold f. rewrite (nth_error_nth _ _ _ Ea). f_equal. f_equal. destruct iaxes; [|reflexivity]. apply existsb_In, in_seq. lia. }
  assert (map snd (filter (fun '(i, _) => negb (f i)) (combine (seq 0 n) (var_axes x))) = dropped (gone_flags x iaxes) (var_axes x)) as Ea.
  { rewrite <- E. apply squeeze_axes. }
  assert (squeeze_var env junk x iaxes = Var (dropped (gone_flags x iaxes) (var_axes x))
    (GetView (fun v => match get v x false false with Some values => reshape values (vshape v) | None => None end))) as ->.
  { unfold squeeze_var. cbv zeta. f_equal. rewrite <- Ea. reflexivity. }
  split; [reflexivity|]. apply squeeze_core; [exact Hx| |].
  - unfold gone_flags. rewrite map_length, combine_length, seq_length. lia.
  - unfold gone_flags. apply Forall2_intro_nth; [rewrite map_length, combine_length, seq_length; lia|]. intros i g a Hg' Ha Eg.
    rewrite nth_error_map, nth_error_combine, nth_error_seq, Ha in Hg'. destruct (Nat.ltb_spec i (length (var_axes x))); [|discriminate].
    cbn in Hg'. injection Hg' as <-. apply andb_true_iff in Eg as [_ Eg]. lia.
Qed.


(** ** statements about positions *)
Lemma picks_position inds p q : picks inds p q -> position (map zlen inds) p /\ q = gather inds p.
Proof.
  intros H. split; [|now apply picks_gather]. induction H; cbn; constructor; auto. eapply IndexProofs.elem_lt; eassumption.
Qed.

Lemma view_get_picks (x : var) D inds : getable env x D ->
  Forall2 (fun a l => in_range (axis_len a) l) (var_axes x) inds ->
  exists r, get (view_of_inds (var_axes x) inds) x true true = Some r /\
    shape r = map zlen inds /\ forall p q, picks inds p q -> val r p = D q.
Proof.
  intros Hx Hr. destruct (getable_get x D inds Hx Hr) as (r & H1 & H2 & H3). exists r. split; [exact H1|]. split; [exact H2|].
  intros p q Hpq. apply picks_position in Hpq as [Hp ->]. now apply H3.
Qed.


Lemma slice_index_complete s n l : index_of_slice s n l -> slice_index s n = Some l.
Proof.
  destruct s as [s|i|l']; cbn.
  - intros [H1 H2]. destruct (Z.eqb_spec (eff_step s) 0); [contradiction|]. f_equal. apply list_ext. intros k x. rewrite H2. now apply elem_arange.
  - intros [H ->]. destruct (Z.leb_spec (- n) i), (Z.ltb_spec i n); try lia. reflexivity.
  - intros H. assert (forallb (fun i => (- n <=? i) && (i <? n)) l' = true /\ map (from_end n) l' = l) as [-> ->]; [|reflexivity].
    induction H as [|i j l' l [H ->] _ [I1 I2]]; [split; reflexivity|]. cbn. rewrite I1, I2.
    split; [|reflexivity]. rewrite andb_true_r. lia.
Qed.

Lemma Forall2_combine_map {A B C E} (f : A -> B) (R : B -> C -> E -> Prop) (l : list A) (s : list C) (r : list E) :
  Forall2 (fun '(b, c) e => R b c e) (combine (map f l) s) r <-> Forall2 (fun '(a, c) e => R (f a) c e) (combine l s) r.
Proof.
  revert s r. induction l as [|a l IH]; intros [|c s] r; cbn; try (split; intros H; inversion H; constructor; fail).
  split; intros H; inversion H; subst; constructor; try assumption; now apply IH.
Qed.

Lemma slice_total (x : var) D args sls inds : holds env x D -> completed args (length (var_axes x)) sls ->
  Forall2 (fun '(n, s) l => index_of_slice s n l) (combine (var_shape x) sls) inds ->
  exists y, slice_var env junk x args = Some y /\
    Forall2 (fun '(a, b) l => sliced a l b) (combine (var_axes x) (var_axes y)) inds /\
    var_shape y = map zlen inds /\
    getable env y (fun p => D (gather inds p)) /\
    (Forall (@NoDup Z) inds -> holds env y (fun p => D (gather inds p))).
Proof.
  intros Hx Hc Hi. unfold var_shape in Hi. apply (Forall2_combine_map axis_len (fun n s l => index_of_slice s n l)) in Hi.
  assert (exists y, slice_var env junk x args = Some y) as [y Hy].
  { unfold slice_var. rewrite (proj2 (fill_ellipsis_spec _ _ _) Hc).
    rewrite (proj2 (sequence_Forall2 _ _ inds)). { destruct (forallb _ _); eauto. }
    eapply Forall2_impl; [|exact Hi]. intros [a s] l. apply slice_index_complete. }
  exists y. split; [exact Hy|]. destruct (slice_holds x D args y Hx Hy) as (sls' & inds' & Hc' & Hi' & H1 & H2 & H3 & H4).
  assert (sls' = sls) as -> by (apply fill_ellipsis_spec in Hc, Hc'; congruence).
  assert (inds' = inds) as ->.
  { apply (Forall2_impl _ (fun '(a, s) l => slice_index s (axis_len a) = Some l)) in Hi; [|intros [a s] l; apply slice_index_complete].
    apply (Forall2_impl _ (fun '(a, s) l => slice_index s (axis_len a) = Some l)) in Hi'; [|intros [a s] l; apply slice_index_complete].
    clear -Hi Hi'. revert inds' Hi'. induction Hi as [|[a s] l xs inds H _ IH]; intros inds' Hi'; inversion Hi'; subst; [reflexivity|]. f_equal; [congruence|auto]. }
  auto.
Qed.

Lemma last_default {A} (a : A) l d d' : last (a :: l) d = last (a :: l) d'.
Proof. revert a. induction l as [|b l IH]; intros a; [reflexivity|]. cbn in *. apply IH. Qed.

Lemma nested_slices argss : forall (x : var) D indss, holds env x D -> np_slices (var_shape x) argss indss ->
  (forall inds, In inds (removelast indss) -> Forall (@NoDup Z) inds) ->
  exists y D', slice_all env junk x argss = Some y /\ getable env y D' /\
    var_shape y = last (map (map zlen) indss) (var_shape x) /\
    forall p q, position (var_shape y) p -> comes_from indss p q -> D' p = D q.
Proof.
  induction argss as [|args argss IH]; intros x D indss Hx Hn Hd.
  - inversion Hn; subst. exists x, D. split; [reflexivity|]. split; [apply Hx|]. split; [reflexivity|]. intros p q _ Hc. now inversion Hc.
  - inversion Hn as [|s0 args0 sls inds argss0 indss' Hcomp Hidx Hrest]; subst.
    unfold var_shape in Hcomp. rewrite map_length in Hcomp. destruct (slice_total x D args sls inds Hx Hcomp Hidx) as (y & Hy & Hsl & Hsh & Hg & Hh).
    rewrite <- Hsh in Hrest. cbn [slice_all]. rewrite Hy. destruct indss' as [|i2 indss].
    + inversion Hrest; subst. exists y, (fun p => D (gather inds p)). split; [reflexivity|]. split; [exact Hg|]. split; [exact Hsh|].
      intros p q _ Hc. inversion Hc as [|? ? ? ? ? Hc1 Hc2]; subst. inversion Hc1; subst. f_equal. apply picks_position in Hc2 as [_ ->]. reflexivity.
    + destruct (IH y (fun p => D (gather inds p)) (i2 :: indss)) as (z & D' & I1 & I2 & I3 & I4).
      { apply Hh. apply Hd. now left. }
      { exact Hrest. }
      { intros i Hi. apply Hd. cbn [removelast]. right. exact Hi. }
      exists z, D'. split; [exact I1|]. split; [exact I2|]. split.
      * rewrite I3. cbn [map]. change (last (map zlen inds :: map zlen i2 :: map (map zlen) indss) (var_shape x)) with (last (map zlen i2 :: map (map zlen) indss) (var_shape x)).
        apply last_default.
      * intros p q Hp Hc. inversion Hc as [|? ? ? ? ? Hc1 Hc2]; subst. rewrite (I4 p m Hp) by assumption. f_equal. apply picks_position in Hc2 as [_ ->]. reflexivity.
Qed.

End Ops.
