(** Datasets built from variables whose same-named axes agree. *)
From Coq Require Import ZArith List Bool Lia QArith_base String Ascii.
From Verif Require Import SortSpec IndexModel IndexSpec IndexProofs ArrModel ArrProofs ViewModel ViewSpec ViewProofs AxisModel AxisSpec AxisProofs VarOpsModel VarOpsSpec VarOpsProofs
  ReduceSpec RespondProofs StencilModel SelectModel SelectSpec SelectProofs DatasetModel DatasetSpec DatasetProofs DatasetProps CallProofs DsMapModel DsMapSpec DsMapProofs DsMapProps DsNameModel.
Import ListNotations.
Open Scope Z_scope.
Open Scope list_scope.

(** the same name, axes of the same names and contents, and the same data *)
Definition same_var {V} (env : axenv) (w u : vobj V) : Prop :=
  v_name u = v_name w /\ map a_name (v_axes u) = map a_name (v_axes w) /\ map a_axis (v_axes u) = map a_axis (v_axes w) /\
  forall D, responds env (var_of w) D -> responds env (var_of u) D.
Lemma make_agreeing {V} env (junk : list Z -> V) enc next ws : env_ok env -> objects (axes_of ws) next -> NoDup (map v_name ws) -> ~ In ""%string (map v_name ws) ->
  (forall b c, In b (axes_of ws) -> In c (axes_of ws) -> a_name b = a_name c -> b = c \/ (a_axis b = a_axis c /\ self_equal (a_axis b))) ->
  exists ds', make_dataset env junk enc next ws = Some ds' /\ well_named (ds_vars ds') /\ Forall2 (same_var env) ws (ds_vars ds').
Proof.
  intros Henv Hob W1 W2 Hs.
  assert (forall b c, In b (axes_of ws) -> In c (axes_of ws) -> a_name b = a_name c -> a_axis b = a_axis c) as Hsame.
  { intros b c Hb Hc En. destruct (Hs b c Hb Hc En) as [->|[H _]]; auto. }
  assert (forall b c, In b (axes_of ws) -> In c (axes_of ws) -> a_name b = a_name c -> agree b c) as Hagree.
  { intros b c Hb Hc En. destruct (Hs b c Hb Hc En) as [->|[H K]]; [now left|]. right. rewrite <- H. now apply axis_eq_self. }
  destruct (C44_contents V env junk enc next ws Henv Hob) as (ds' & Eds & HL & Hcont). exists ds'. split; [exact Eds|]. split.
  - apply (C44_made V env junk enc next ws ds' Henv Hob); [| |exact Eds].
    + intros n. rewrite default_same by exact W2. destruct (occurrences_nodup n _ W1). lia.
    + intros hs Hi Hp. destruct hs as [|h [|h' hs]]; [cbn; lia|cbn; lia|]. exfalso. destruct (Hp 0%nat 1%nat h h') as [K1 K2]; [lia|reflexivity|reflexivity|].
      apply K2. apply Hagree; [apply Hi; right; now left|apply Hi; now left|congruence].
  - apply Forall2_intro_nth; [now rewrite HL|]. intros i w u Ew Hu.
    destruct (Hcont i w Ew) as (u' & Hu' & Hst & Hnm & Hget). rewrite Hu in Hu'. injection Hu' as <-.
    assert (Forall2 (fun a b => a_name b = a_name a /\ a_axis b = a_axis a) (v_axes w) (v_axes u)) as Hst'.
    { assert (incl (v_axes w) (axes_of ws)) as Hiw by (intros x Hx; eapply in_axes_of; [eapply nth_error_In; exact Ew|exact Hx]). clear -Hst Hiw Hagree Hsame.
      induction Hst as [|a b A B Hab _ IH]; [constructor|]. constructor; [|apply IH; intros x Hx; apply Hiw; now right]. destruct Hab as (r & Hr & Hn & _ & _ & Heq).
      rewrite Heq; [|intros x y Hx Hy Ex Ey; apply Hagree; auto; congruence]. split; [exact Hn|]. apply Hsame; auto. apply Hiw. now left. }
    assert (map a_axis (v_axes u) = map a_axis (v_axes w) /\ map a_name (v_axes u) = map a_name (v_axes w)) as [Hax Han].
    { clear -Hst'. induction Hst' as [|a b A B [H1 H2] _ [IH1 IH2]]; [split; reflexivity|]. cbn. rewrite H1, H2, IH1, IH2. split; reflexivity. }
    split; [apply Hnm; [intros K; apply W2; rewrite <- K; apply in_map; eapply nth_error_In; exact Ew|rewrite default_same by exact W2; apply occurrences_nodup; [exact W1|apply in_map; eapply nth_error_In; exact Ew]]|].
    split; [exact Han|]. split; [exact Hax|]. intros D HD. apply Hget; [rewrite Hax; exact (proj1 HD)|exact HD].
Qed.

Section Thread.
Context {V : Type} (f : Z -> vobj V -> option (option (vobj V) * Z)) (good : vobj V -> Prop) (R : vobj V -> vobj V -> Prop).
Hypothesis Hf : forall next v, good v -> exists w next', f next v = Some (Some w, next') /\ R v w /\ next <= next' /\
    (forall b, In b (v_axes w) -> In b (v_axes v) \/ next <= a_id b < next') /\
    (forall b c, In b (v_axes w) -> In c (v_axes w) -> a_id b = a_id c -> next <= a_id b -> (forall a, In a (v_axes v) -> a_id a < next) -> b = c).
(** identities stay distinct while a function that makes axes is applied to the variables *)
Lemma map_thread P next0 : objects P next0 -> forall vars next, incl (axes_of vars) P -> next0 <= next -> Forall good vars ->
  exists ws next', map_vars f next vars = Some (ws, next') /\ next <= next' /\ Forall2 R vars ws /\
    (forall b, In b (axes_of ws) -> In b P \/ next <= a_id b < next') /\
    (forall b c, In b (axes_of ws) -> In c (axes_of ws) -> a_id b = a_id c -> b = c).
Proof.
  intros [Ho1 Ho2]. induction vars as [|v vars IH]; intros next Hincl Hn HF.
  - exists [], next. split; [reflexivity|]. split; [lia|]. split; [constructor|]. split; intros b; contradiction.
  - inversion HF as [|? ? F1 F2]; subst. destruct (Hf next v F1) as (w & n1 & E1 & Hw & L1 & I1 & U1).
    destruct (IH n1) as (ws & n2 & E2 & L2 & HF2 & I2 & U2); [intros b Hb; apply Hincl; cbn; apply in_app_iff; now right|lia|exact F2|].
    assert (incl (v_axes v) P) as Hv by (intros b Hb; apply Hincl; cbn; apply in_app_iff; now left).
    exists (w :: ws), n2. split; [cbn [map_vars]; rewrite E1; cbn [bind]; rewrite E2; reflexivity|]. split; [lia|]. split; [constructor; assumption|].
    assert (forall b, In b (v_axes w) -> In b P \/ next <= a_id b < n1) as J1. { intros b Hb. destruct (I1 b Hb) as [K|K]; [left; now apply Hv|now right]. }
    split.
    + intros b Hb. cbn in Hb. apply in_app_iff in Hb as [Hb|Hb]; [destruct (J1 b Hb); [now left|right; lia]|destruct (I2 b Hb); [now left|right; lia]].
    + assert (forall b c, In b (v_axes w) -> In c (axes_of ws) -> a_id b = a_id c -> b = c) as X.
      { intros b c Hb Hc E. destruct (J1 b Hb) as [Kb|Kb], (I2 c Hc) as [Kc|Kc]; [now apply Ho1| | |]; [pose proof (Ho2 b Kb); lia|pose proof (Ho2 c Kc); lia|lia]. }
      intros b c Hb Hc E. cbn in Hb, Hc. apply in_app_iff in Hb as [Hb|Hb], Hc as [Hc|Hc]; [|now apply X|symmetry; now apply X|now apply U2].
      destruct (Z.lt_ge_cases (a_id b) next) as [Hlt|Hge].
      * destruct (J1 b Hb) as [Kb|Kb]; [|lia]. destruct (J1 c Hc) as [Kc|Kc]; [|lia]. now apply Ho1.
      * apply U1; auto. intros a Ha. pose proof (Ho2 a (Hv a Ha)). lia.
Qed.
End Thread.

(** ** axes renamed *)
Definition renamed_as (enc : string -> Z) (a : axobj) (t : option string) (b : axobj) : Prop :=
  match t with Some n => a_name b = n /\ a_axis b = rename_axis enc n (a_axis a) | None => b = a end.
Lemma rename_objs_spec enc axes : forall next targets objs next', List.length targets = List.length axes -> rename_objs enc next axes targets = (objs, next') ->
  next <= next' /\ Forall2 (fun '(a, t) b => renamed_as enc a t b) (combine axes targets) objs /\ List.length objs = List.length axes /\
  (forall b, In b objs -> In b axes \/ next <= a_id b < next') /\
  (forall b c, In b objs -> In c objs -> a_id b = a_id c -> next <= a_id b -> (forall a, In a axes -> a_id a < next) -> b = c).
Proof.
  induction axes as [|a axes IH]; intros next [|t targets] objs next' HL H; try discriminate; cbn [rename_objs] in H.
  - injection H as <- <-. split; [lia|]. split; [constructor|]. split; [reflexivity|]. split; intros b; contradiction.
  - cbn in HL. injection HL as HL. destruct t as [n|].
    + destruct (rename_objs enc (next + 1) axes targets) as [o k] eqn:Eo. injection H as <- <-. destruct (IH _ _ _ _ HL Eo) as (H1 & H2 & H3 & H4 & H5).
      split; [lia|]. split; [cbn [combine]; constructor; [split; reflexivity|exact H2]|]. split; [cbn; now rewrite H3|]. split.
      * intros b [<-|Hb]; [right; cbn [a_id]; lia|]. destruct (H4 b Hb); [left; now right|right; lia].
      * intros b c Hb Hc Eid Hnew Hold. assert (forall x, In x axes -> a_id x < next + 1) as Hold' by (intros x Hx; pose proof (Hold x (or_intror Hx)); lia).
        assert (forall x, In x o -> a_id x <> next) as Hnx. { intros x Hx. destruct (H4 x Hx) as [K|K]; [pose proof (Hold x (or_intror K)); lia|lia]. }
        destruct Hb as [<-|Hb], Hc as [<-|Hc]; cbn [a_id] in *; [reflexivity|pose proof (Hnx c Hc); congruence|pose proof (Hnx b Hb); congruence|].
        apply H5; auto. pose proof (Hnx b Hb). lia.
    + destruct (rename_objs enc next axes targets) as [o k] eqn:Eo. injection H as <- <-. destruct (IH _ _ _ _ HL Eo) as (H1 & H2 & H3 & H4 & H5).
      split; [exact H1|]. split; [cbn [combine]; constructor; [reflexivity|exact H2]|]. split; [cbn; now rewrite H3|]. split.
      * intros b [<-|Hb]; [left; now left|]. destruct (H4 b Hb); [left; now right|now right].
      * intros b c Hb Hc Eid Hnew Hold. assert (forall x, In x axes -> a_id x < next) as Hold' by (intros; apply Hold; now right). destruct Hb as [<-|Hb], Hc as [<-|Hc]; [reflexivity| | |now apply H5].
        -- pose proof (Hold a (or_introl eq_refl)). lia.
        -- pose proof (Hold a (or_introl eq_refl)). lia.
Qed.
Lemma rename_len enc n a : axis_len (rename_axis enc n a) = axis_len a.
Proof. destruct a; reflexivity. Qed.
Lemma rename_self_equal enc n a : self_equal a -> self_equal (rename_axis enc n a).
Proof. destruct a; auto. Qed.
Lemma renamed_len enc l : forall targets objs, List.length targets = List.length l -> Forall2 (fun '(a, t) b => renamed_as enc a t b) (combine l targets) objs -> map (fun a => axis_len (a_axis a)) objs = map (fun a => axis_len (a_axis a)) l.
Proof.
  induction l as [|a l IH]; intros [|t targets] objs HL H; try discriminate; cbn [combine] in H; inversion H as [|? b ? objs' H1 H2]; subst; [reflexivity|]. cbn. injection HL as HL.
  rewrite (IH _ _ HL H2). f_equal. destruct t as [n|]; cbn in H1; [destruct H1 as [_ ->]; apply rename_len|now subst].
Qed.
Lemma new_name_spec N axes namemap i :
  match new_name N axes namemap i with
  | Some n2 => exists pre n1 post, namemap = pre ++ (n1, n2) :: post /\ which_axis N axes n1 = Some i /\ forall m1 m2, In (m1, m2) post -> which_axis N axes m1 <> Some i
  | None => forall m1 m2, In (m1, m2) namemap -> which_axis N axes m1 <> Some i
  end.
Proof.
  unfold new_name. rewrite <- (rev_involutive namemap). generalize (List.rev namemap). intros l. rewrite <- fold_left_rev_right, rev_involutive. induction l as [|[n1 n2] l IH]; [intros m1 m2 []|].
  cbn [fold_right List.rev]. assert (forall m1 m2, which_axis N axes n1 <> Some i -> In (m1, m2) (List.rev l ++ [(n1, n2)]) -> (In (m1, m2) (List.rev l) -> which_axis N axes m1 <> Some i) -> which_axis N axes m1 <> Some i) as Hsnoc.
  { intros m1 m2 Hne Hin Hl. apply in_app_iff in Hin as [Hin|[E|[]]]; [auto|]. injection E as <- _. exact Hne. }
  assert (which_axis N axes n1 = Some i \/ which_axis N axes n1 <> Some i) as [Hw|Hw].
  { destruct (which_axis N axes n1) as [j|]; [|right; discriminate]. destruct (Nat.eq_dec j i) as [->|]; [now left|right; congruence]. }
  - rewrite Hw, Nat.eqb_refl. exists (List.rev l), n1, []. split; [reflexivity|]. split; [exact Hw|]. intros m1 m2 [].
  - match goal with |- match (match which_axis N axes n1 with Some j => if Nat.eqb i j then Some n2 else ?r | None => ?r end) with _ => _ end => replace (match which_axis N axes n1 with Some j => if Nat.eqb i j then Some n2 else r | None => r end) with r end.
    2:{ destruct (which_axis N axes n1) as [j|]; [|reflexivity]. destruct (Nat.eqb_spec i j); [congruence|reflexivity]. }
    destruct (fold_right _ None l) as [m2|].
    + destruct IH as (pre & m1 & post & E & K1 & K2). exists pre, m1, (post ++ [(n1, n2)]). split; [rewrite E, <- app_assoc; reflexivity|]. split; [exact K1|]. intros k1 k2 Hin. apply in_app_iff in Hin as [Hin|[E'|[]]]; [eauto|]. injection E' as <- _. exact Hw.
    + intros m1 m2 Hin. apply (Hsnoc m1 m2 Hw Hin). apply IH.
Qed.
