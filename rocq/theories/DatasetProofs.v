(** Proofs about datasets. *)
From Coq Require Import ZArith List Bool String Lia.
From Verif Require Import IndexModel IndexSpec IndexProofs ArrModel ArrProofs ViewModel ViewSpec AxisModel AxisSpec VarOpsModel VarOpsSpec VarOpsLemmas ReduceModel ReduceSpec RespondProofs
  DatasetModel DatasetSpec DatasetNames DatasetAxes DatasetVars.
From Verif Require ViewProofs ConcatVar VarOpsProofs LeapVar.
Import ListNotations.
Open Scope Z_scope.
Open Scope list_scope.
Notation length := List.length.

Lemma axis_eq_len a b : axis_eq a b = true -> axis_len a = axis_len b.
Proof.
  intros H. apply ConcatVar.same_len. destruct a, b; cbn [axis_eq axis_same] in *; try assumption. now rewrite H, orb_true_r.
Qed.
Lemma rename_axis_len enc n a : axis_len (rename_axis enc n a) = axis_len a.
Proof. now destruct a. Qed.

Lemma sequence_map_Forall2 {A B} (f : A -> option B) l : (forall a, In a l -> exists b, f a = Some b) -> exists l', sequence (map f l) = Some l' /\ Forall2 (fun a b => f a = Some b) l l'.
Proof.
  induction l as [|a l IH]; intros H; [exists []; split; [reflexivity|constructor]|]. destruct (H a (or_introl eq_refl)) as (b & Hb). destruct (IH (fun x Hx => H x (or_intror Hx))) as (l' & E & F).
  exists (b :: l'). cbn [map sequence]. rewrite Hb, E. split; [reflexivity|]. now constructor.
Qed.

Section Made.
Context {V : Type} (env : axenv) (Henv : env_ok env) (junk : list Z -> V) (enc : string -> Z) (next : Z).

Lemma replace_keeps (x : var axis V) newaxes D : responds env x D -> separate newaxes -> forall y, replace_axes env junk x newaxes = Some y -> responds env y D.
Proof.
  intros Hx Hs y. unfold replace_axes. destruct (_ && _) eqn:E; [|discriminate]. intros [= <-]. split; [exact Hs|]. cbn [var_source var_axes]. intros inds Hi. cbn [vinds vslices view_of_inds].
  change (MkView (var_axes x) (map simplify inds) inds) with (view_of_inds (var_axes x) inds).
  apply (responds_part env Henv junk x D inds Hx). apply andb_true_iff in E as [E1 E2]. apply Nat.eqb_eq in E1. rewrite forallb_forall in E2.
  clear -E1 E2 Hi. revert E1 E2. generalize (var_axes x) as l. induction Hi as [|a i newaxes inds Ha _ IH]; intros [|b l] E1 E2; try discriminate E1; constructor.
  - pose proof (E2 (a, b) (or_introl eq_refl)) as K. cbv beta iota in K. apply Z.eqb_eq in K. unfold selection in *. now rewrite <- K.
  - apply IH; [now injection E1|]. intros z Hz. apply E2. now right.
Qed.
Lemma rename_keeps (x : var axis V) D : responds env x D -> responds env (rename_var env junk x) D.
Proof.
  intros Hx. split; [exact (proj1 Hx)|]. cbn [var_source var_axes rename_var wrapped]. intros inds Hi. exact (responds_part env Henv junk x D inds Hx Hi).
Qed.

Section Axes.
Context (P : list axobj) (Hob : objects P next).
Let Hc : coherent P := proj1 Hob.
Let Hnext := proj2 Hob.
Let l := rename_axes enc (map fst (clump P)) next (clump P).

Lemma new_len a b : In a P -> new_axis l a = Some b -> axis_len (a_axis b) = axis_len (a_axis a).
Proof.
  intros Ha Hb. destruct (new_axis_from enc next P Hc Hnext a Ha) as (b' & r & Hb' & Hr & _ & Hag & Hcase). unfold l in Hb. rewrite Hb in Hb'. injection Hb' as <-.
  assert (axis_len (a_axis a) = axis_len (a_axis r)) as -> by (destruct Hag as [->|Hag]; [reflexivity|now apply axis_eq_len]).
  destruct Hcase as [[_ ->]|(_ & _ & -> & _)]; [reflexivity|]. now rewrite rename_axis_len.
Qed.
Lemma new_stands a b : In a P -> new_axis l a = Some b -> stands_for enc P a b.
Proof.
  intros Ha Hb. destruct (new_axis_from enc next P Hc Hnext a Ha) as (b' & r & Hb' & Hr & Hn & Hag & Hcase). unfold l in Hb. rewrite Hb in Hb'. injection Hb' as <-.
  exists r. split; [exact Hr|]. split; [exact Hn|]. split; [exact Hag|]. split.
  - destruct Hcase as [[_ ->]|(_ & _ & E & Hni)]; [now left|right]. split; [exact E|]. intros c Hcc Ec. apply Hni. rewrite <- Ec. apply (proj1 (proj2 (clump_spec P))). now exists c.
  - intros Hagr. destruct Hcase as [[_ ->]|(N & _)]; [reflexivity|]. exfalso. apply N. apply (one_family next P Hc Hnext); [now exists a|]. intros x y Hx Hy Nx Ny. now apply Hagr.
Qed.
Lemma same_id a b : In a P -> new_axis l a = Some b -> a_id a = a_id b -> b = a.
Proof.
  intros Ha Hb E. destruct (new_axis_from enc next P Hc Hnext a Ha) as (b' & r & Hb' & Hr & _ & _ & Hcase). unfold l in Hb. rewrite Hb in Hb'. injection Hb' as <-.
  destruct Hcase as [[_ ->]|(_ & Hge & _ & _)]; [apply Hc; auto|]. pose proof (Hnext a Ha). lia.
Qed.
Lemma new_alone a b : In a P -> new_axis l a = Some b -> (forall c, In c P -> a_name c = a_name a -> c = a) -> b = a.
Proof.
  intros Ha Hb H. destruct (new_stands a b Ha Hb) as (r & Hr & Hn & _ & _ & K). rewrite K; [now apply H|]. intros x y Hx Hy Nx Ny. left. now rewrite (H x Hx Nx), (H y Hy Ny).
Qed.

Lemma with_axes_spec (v : vobj V) : incl (v_axes v) P ->
  exists w, with_axes env junk l v = Some w /\ v_name w = v_name v /\ Forall2 (fun a b => new_axis l a = Some b) (v_axes v) (v_axes w) /\ (v_axes w = v_axes v -> w = v) /\
    (forall D, separate (map a_axis (v_axes w)) -> (getable env (var_of v) D -> getable env (var_of w) D) /\ (responds env (var_of v) D -> responds env (var_of w) D)).
Proof.
  intros Hin. destruct (sequence_map_Forall2 (new_axis l) (v_axes v)) as (axes & Es & HF).
  { intros a Ha. destruct (new_axis_from enc next P Hc Hnext a (Hin a Ha)) as (b & _ & Hb & _). now exists b. }
  unfold with_axes. rewrite Es. destruct (forallb _ _) eqn:Ef.
  - exists v. split; [reflexivity|]. split; [reflexivity|]. assert (axes = v_axes v) as ->.
    { clear -Hin HF Ef Hob Hnext Hc Henv. revert Hin Ef. induction HF as [|a b A B Hab _ IH]; intros Hin Ef; [reflexivity|]. cbn [combine forallb] in Ef. apply andb_true_iff in Ef as [E1 E2]. apply Z.eqb_eq in E1.
      f_equal; [apply same_id; auto; apply Hin; now left|]. apply IH; [|exact E2]. intros x Hx. apply Hin. now right. }
    split; [exact HF|]. split; [reflexivity|]. intros D _. split; auto.
  - assert (map axis_len (map a_axis axes) = map axis_len (map a_axis (v_axes v))) as Hlen.
    { rewrite !map_map. clear -Hin HF Hob Hc Hnext Henv. induction HF as [|a b A B Hab _ IH]; [reflexivity|]. cbn [map]. f_equal; [apply new_len; auto; apply Hin; now left|]. apply IH. intros x Hx. apply Hin. now right. }
    assert (exists y, replace_axes env junk (var_of v) (map a_axis axes) = Some y /\ var_axes y = map a_axis axes) as (y & Ey & Ay).
    { unfold replace_axes. replace (_ && _) with true; [eexists; split; reflexivity|]. symmetry. apply andb_true_iff. cbn [var_of var_axes]. split.
      - apply Nat.eqb_eq. apply (f_equal (@length Z)) in Hlen. repeat rewrite map_length in Hlen. repeat rewrite map_length. exact Hlen.
      - apply forallb_forall. intros [x z] Hxz. apply Z.eqb_eq. clear -Hlen Hxz. revert Hlen Hxz. generalize (map a_axis axes) (map a_axis (v_axes v)). intros A. induction A as [|a A IH]; intros [|b B] Hl H; cbn [combine In map] in *; try contradiction.
        injection Hl as H1 H2. destruct H as [[= <- <-]|H]; [exact H1|now apply (IH B)]. }
    rewrite Ey. exists (MkVar (v_name v) axes (var_source y)). split; [reflexivity|]. split; [reflexivity|]. cbn [v_axes]. split; [exact HF|]. split.
    + intros ->. exfalso. assert (forallb (fun '(a, b) => a_id a =? a_id b) (combine (v_axes v) (v_axes v)) = true) as K; [|congruence].
      apply forallb_forall. intros [x z] Hxz. apply Z.eqb_eq. clear -Hxz. induction (v_axes v) as [|a A IH]; [destruct Hxz|]. destruct Hxz as [[= <- <-]|H]; [reflexivity|auto].
    + intros D Hs. assert (var_of (MkVar (v_name v) axes (var_source y)) = y) as -> by (unfold var_of; cbn [v_axes v_source]; rewrite <- Ay; now destruct y). split; intros Hx.
      * destruct (proj1 (replace_statement env junk (var_of v) D (map a_axis axes) Hx Hs) Hlen) as (y' & E' & _ & G). congruence.
      * exact (replace_keeps _ _ D Hx Hs y Ey).
Qed.
End Axes.

(** *** collecting the axes *)
Lemma collect_In seen axes a : In a (collect seen axes) -> In a axes /\ ~ In (a_id a) seen.
Proof.
  revert seen. induction axes as [|b axes IH]; intros seen; cbn [collect]; [intros []|]. destruct (existsb (Z.eqb (a_id b)) seen) eqn:E.
  - intros H. apply IH in H as [H1 H2]. split; [now right|exact H2].
  - intros [->|H]; [split; [now left|]|apply IH in H as [H1 H2]; split; [now right|]; intros K; apply H2; now right].
    intros K. assert (false = true); [|discriminate]. rewrite <- E. apply existsb_exists. exists (a_id a). split; [exact K|apply Z.eqb_refl].
Qed.
Lemma collect_all seen axes a : In a axes -> ~ In (a_id a) seen -> exists b, In b (collect seen axes) /\ a_id b = a_id a.
Proof.
  revert seen. induction axes as [|b axes IH]; intros seen; [intros []|]. intros [->|H] Hn; cbn [collect].
  - destruct (existsb (Z.eqb (a_id a)) seen) eqn:E; [|exists a; split; [now left|reflexivity]]. exfalso. apply existsb_exists in E as (z & Hz & E). apply Z.eqb_eq in E. subst z. contradiction.
  - destruct (existsb (Z.eqb (a_id b)) seen) eqn:E; [now apply IH|]. destruct (Z.eq_dec (a_id b) (a_id a)) as [Eb|Nb]; [exists b; split; [now left|exact Eb]|].
    destruct (IH (a_id b :: seen) H) as (c & Hcc & Ec); [intros [K|K]; [congruence|contradiction]|]. exists c. split; [now right|exact Ec].
Qed.
Lemma collect_NoDup seen axes : NoDup (map a_id (collect seen axes)).
Proof.
  revert seen. induction axes as [|b axes IH]; intros seen; cbn [collect]; [constructor|]. destruct (existsb (Z.eqb (a_id b)) seen); [apply IH|]. cbn [map]. constructor; [|apply IH].
  intros K. apply in_map_iff in K as (a & Ea & Ha). apply collect_In in Ha as [_ Hn]. apply Hn. left. now rewrite Ea.
Qed.

(** *** the whole *)
Definition new_of (P : list axobj) (a b : axobj) : Prop := new_axis (rename_axes enc (map fst (clump P)) next (clump P)) a = Some b.
Lemma renamed_axes (v : vobj V) n : v_axes (renamed_var env junk v n) = v_axes v.
Proof. unfold renamed_var. now destruct (String.eqb n (v_name v)). Qed.
Lemma renamed_name (v : vobj V) n : v_name (renamed_var env junk v n) = n.
Proof. unfold renamed_var. destruct (String.eqb_spec n (v_name v)); [congruence|reflexivity]. Qed.
Lemma renamed_same (v : vobj V) : renamed_var env junk v (v_name v) = v.
Proof. unfold renamed_var. now rewrite String.eqb_refl. Qed.

Lemma make_spec (vars : list (vobj V)) : objects (axes_of vars) next ->
  exists ds, make_dataset env junk enc next vars = Some ds /\
    Forall2 (fun v w => Forall2 (new_of (axes_of vars)) (v_axes v) (v_axes w) /\
                        forall D, separate (map a_axis (v_axes w)) -> (getable env (var_of v) D -> getable env (var_of w) D) /\ (responds env (var_of v) D -> responds env (var_of w) D)) vars (ds_vars ds) /\
    map v_name (ds_vars ds) = names (map v_name vars) /\
    ds_axes ds = collect [] (axes_of (ds_vars ds)) /\
    (Forall2 (fun v w => v_axes w = v_axes v) vars (ds_vars ds) -> names (map v_name vars) = map v_name vars -> ds_vars ds = vars).
Proof.
  intros Hob. remember (axes_of vars) as P eqn:EP. set (l := rename_axes enc (map fst (clump P)) next (clump P)).
  destruct (sequence_map_Forall2 (with_axes env junk l) vars) as (ws & Es & HF).
  { intros v Hv. destruct (with_axes_spec P Hob v) as (w & Hw & _); [intros a Ha; rewrite EP; apply in_flat_map; now exists v|]. now exists w. }
  assert (Forall2 (fun v w => v_name w = v_name v /\ Forall2 (new_of P) (v_axes v) (v_axes w) /\ (v_axes w = v_axes v -> w = v) /\
            (forall D, separate (map a_axis (v_axes w)) -> (getable env (var_of v) D -> getable env (var_of w) D) /\ (responds env (var_of v) D -> responds env (var_of w) D))) vars ws) as HG.
  { assert (forall v, In v vars -> incl (v_axes v) P) as Hall by (intros v Hv a Ha; rewrite EP; apply in_flat_map; now exists v).
    assert (forall v w, incl (v_axes v) P -> with_axes env junk l v = Some w -> v_name w = v_name v /\ Forall2 (new_of P) (v_axes v) (v_axes w) /\ (v_axes w = v_axes v -> w = v) /\
            (forall D, separate (map a_axis (v_axes w)) -> (getable env (var_of v) D -> getable env (var_of w) D) /\ (responds env (var_of v) D -> responds env (var_of w) D))) as Hone.
    { intros v w Hv Hvw. destruct (with_axes_spec P Hob v Hv) as (w' & Hw' & K). fold l in Hw'. rewrite Hvw in Hw'. injection Hw' as <-. exact K. }
    clear -HF Hall Hone. revert HF Hall Hone. generalize l P. intros l' P'. generalize vars as vs. intros vs HF Hall Hone. induction HF as [|v w A B Hvw _ IH]; constructor.
    - apply Hone; [apply Hall; now left|exact Hvw].
    - apply IH. intros x Hx. apply Hall. now right. }
  assert (map v_name ws = map v_name vars) as Hnames by (clear -HG; induction HG as [|v w A B (E & _) _ IH]; [reflexivity|cbn [map]; now rewrite E, IH]).
  assert (length (names (map v_name ws)) = length ws) as Hl by (now rewrite names_length, map_length).
  unfold make_dataset. fold (axes_of vars). rewrite <- EP. fold l. rewrite Es. eexists. split; [reflexivity|]. cbn [ds_vars ds_axes].
  rewrite Hnames in *. remember (names (map v_name vars)) as ns eqn:Ens.
  assert (map v_name (map (fun '(v, n) => renamed_var env junk v n) (combine ws ns)) = ns) as Hns.
  { clear -Hl. revert ws Hl. induction ns as [|n ns IH]; intros [|w ws] Hl; try discriminate Hl; [reflexivity|]. cbn [combine map]. rewrite renamed_name. f_equal. apply IH. now injection Hl. }
  split; [|split; [exact Hns|split]].
  - clear -HG Hl Henv. revert Hl. generalize ns. induction HG as [|v w A B (E & G1 & _ & G2) _ IH]; intros [|n ns'] Hl; try discriminate Hl; cbn [combine map]; constructor.
    + rewrite renamed_axes. split; [exact G1|]. intros D Hs. specialize (G2 D Hs). unfold renamed_var. destruct (String.eqb n (v_name w)); [exact G2|].
      assert (var_of (MkVar n (v_axes w) (var_source (rename_var env junk (var_of w)))) = rename_var env junk (var_of w)) as -> by reflexivity. destruct G2 as [G2 G3]. split; intros Hx.
      * apply (VarOpsProofs.rename_getable env Henv). now apply G2.
      * apply rename_keeps. now apply G3.
    + apply IH. now injection Hl.
  - f_equal. unfold axes_of. clear -Hl. revert ws Hl. induction ns as [|n ns IH]; intros [|w ws] Hl; try discriminate Hl; [reflexivity|]. cbn [combine map flat_map]. rewrite renamed_axes. f_equal. apply IH. now injection Hl.
  - intros Hax Hn. rewrite Hn in *. clear -HG Hax Hnames. 
    assert (ws = vars) as ->.
    { clear Hnames. revert Hax. generalize (map v_name vars). induction HG as [|v w A B (E & _ & K & _) _ IH]; intros ns Hax; [reflexivity|]. destruct ns as [|n ns].
      - inversion Hax.
      - cbn [combine map] in Hax. inversion Hax as [|? ? ? ? H1 H2]; subst. rewrite renamed_axes in H1. f_equal; [now apply K|]. apply (IH ns H2). }
    clear. induction vars as [|v vars IH]; [reflexivity|]. cbn [map combine]. now rewrite renamed_same, IH.
Qed.
End Made.
