(** C69: selecting from a dataset selects the same elements of an axis in all variables that have it, and axes that were shared stay shared. *)
From Coq Require Import ZArith List Bool Lia QArith_base String Ascii.
From Verif Require Import ReduceModel SortSpec IndexModel IndexSpec IndexProofs ArrModel ArrProofs ViewModel ViewSpec ViewProofs AxisModel AxisSpec AxisProofs VarOpsModel VarOpsSpec VarOpsProofs
  ReduceSpec RespondProofs StencilModel SelectModel SelectSpec SelectProofs DatasetModel DatasetSpec DatasetProofs DatasetProps CallProofs DsMapModel DsMapSpec DsMapProofs EnvExample ViewProps VarOpsProps StencilProps SelectProps.
Import ListNotations.
Open Scope Z_scope.
Open Scope list_scope.

Lemma occurrences_none n l : ~ In n l -> occurrences n l = 0%nat.
Proof. induction l as [|m l IH]; intros H; [reflexivity|]. cbn [occurrences]. destruct (String.eqb_spec m n) as [->|]; [exfalso; apply H; now left|]. rewrite IH; [reflexivity|]. intros K. apply H. now right. Qed.
Lemma occurrences_nodup n l : NoDup l -> (occurrences n l <= 1)%nat /\ (In n l -> occurrences n l = 1%nat).
Proof.
  induction l as [|m l IH]; intros H; [split; [cbn; lia|intros []]|]. inversion H as [|? ? H1 H2]; subst. destruct (IH H2) as [L1 L2]. cbn [occurrences].
  destruct (String.eqb_spec m n) as [->|K]; [rewrite occurrences_none by exact H1; split; [lia|reflexivity]|]. split; [lia|]. intros [E|E]; [contradiction|]. now rewrite L2.
Qed.
Lemma default_same {V} (vars : list (vobj V)) : ~ In ""%string (map v_name vars) -> map (fun v => default_name (v_name v)) vars = map v_name vars.
Proof.
  intros H. apply map_ext_in. intros v Hv. unfold default_name. destruct (String.eqb_spec (v_name v) ""); [|reflexivity]. exfalso. apply H. rewrite <- e. now apply in_map.
Qed.
Lemma keyword_goes N P kw (axes : list axobj) inds : one_axis_each N P kw -> incl axes P -> separate (map a_axis axes) -> all_selected N (map a_axis axes) kw inds ->
  Forall2 (fun a l => selected N (a_axis a) (fun k r => In (k, r) kw) l) axes inds.
Proof.
  intros Hone Hin Hsep [Hlen Hall]. apply Forall2_intro_nth; [now rewrite map_length in Hlen|]. intros j a l Ha Hl.
  assert (nth_error (map a_axis axes) j = Some (a_axis a)) as Ha' by now rewrite nth_error_map, Ha.
  destruct (Hall j _ l Ha' Hl) as (S1 & S2 & S3). split; [exact S1|]. split; [exact S2|]. intros i Hi. rewrite (S3 i Hi). split.
  - intros H k v p ax Hk Hn Hc. apply (H k v p ax); auto. split; [exact Hk|]. intros i' b Hlt Hb Hab. rewrite nth_error_map in Hb.
    destruct (nth_error axes i') as [b0|] eqn:Eb; [|discriminate]. injection Hb as <-.
    assert (a = b0) as ->. { apply (Hone k); [apply in_map_iff; now exists (k, v)|apply Hin; eapply nth_error_In; eassumption|apply Hin; eapply nth_error_In; eassumption|exists p, ax; auto|exact Hab]. }
    pose proof (VarOpsProofs.separate_NoDup _ Hsep) as Hnd. assert (i' = j); [|lia].
    apply (proj1 (NoDup_nth_error _) Hnd). { rewrite map_length. apply nth_error_Some. congruence. } rewrite !nth_error_map, Eb, Ha. reflexivity.
  - intros H k v p ax [Hk _]. now apply H.
Qed.

Theorem C69_select : forall V N env (junk : list Z -> V) enc next ds kw,
  env_ok env -> objects (axes_of (ds_vars ds)) next -> well_named (ds_vars ds) -> NoDup (map fst kw) ->
  Forall (selectable N env kw) (ds_vars ds) -> (forall a, In a (axes_of (ds_vars ds)) -> self_equal (a_axis a)) -> one_axis_each N (axes_of (ds_vars ds)) kw ->
  exists ds', ds_select N env junk enc kw next ds = Some ds' /\ well_named (ds_vars ds') /\ Forall2 (restricted N env kw) (ds_vars ds) (ds_vars ds').
Proof.
  intros V N env junk enc next ds kw Henv Hob Hwell Hnd HF Hself Hone. unfold ds_select, ds_map.
  destruct (map_select N env Henv junk kw _ next Hnd Hob (ds_vars ds) next (fun a H => H) (Z.le_refl _) HF) as (ws & next' & E & Hle & HFw & Hin & Hid).
  rewrite E. cbn [bind]. clear E. set (vars := ds_vars ds) in *.
  assert (objects (axes_of ws) next') as Hob'. { split; [exact Hid|]. intros a Ha. destruct (Hin a Ha) as [K|K]; [pose proof (proj2 Hob a K); lia|lia]. }
  assert (HFn : Forall2 (fun v w => v_name w = v_name v /\ map a_name (v_axes w) = map a_name (v_axes v) /\ exists inds,
    Forall2 (fun a l => selected N (a_axis a) (fun k r => In (k, r) kw) l) (v_axes v) inds /\
    map a_axis (v_axes w) = map (fun '(a, l) => axis_take env a l) (combine (map a_axis (v_axes v)) inds) /\
    Forall2 (fun a l => sliced (a_axis a) l (axis_take env (a_axis a) l)) (v_axes v) inds /\
    forall D, holds env (var_of v) D -> holds env (var_of w) (fun p => D (gather inds p))) vars ws).
  { assert (forall v, In v vars -> incl (v_axes v) (axes_of vars)) as Hv by (intros v Hv a Ha; eapply in_axes_of; eassumption).
    clearbody vars. clear -Hone HF HFw Hv Henv. revert Hv. assert (Hone' := Hone). generalize dependent (axes_of vars). intros P Hone _ Hv. induction HFw as [|v w vs ws R _ IH]; [constructor|].
    inversion HF as [|? ? F1 F2]; subst. constructor; [|apply IH; [exact F2|intros u Hu; apply Hv; now right]]. destruct R as (R1 & R2 & inds & R3 & R4 & R5).
    destruct F1 as ((D0 & HD0) & _). split; [exact R1|]. split; [exact R2|]. exists inds.
    assert (Forall2 (fun a l => selected N (a_axis a) (fun k r => In (k, r) kw) l) (v_axes v) inds) as Hs.
    { apply (keyword_goes N P); auto; [apply Hv; now left|]. exact (proj2 (proj1 HD0)). }
    split; [exact Hs|]. split; [exact R4|]. split; [|exact R5]. pose proof (proj2 HD0) as Hg. unfold var_of in Hg. cbn [var_axes] in Hg.
    clear -Hs Hg Henv. induction Hs as [|a l axes inds Ha _ IH]; [constructor|]. cbn [map] in Hg. inversion Hg as [|? ? G1 G2]; subst. constructor; [|now apply IH].
    apply (sliced_self env Henv); [exact G1|apply Ha]. }
  clear HFw. 
  assert (forall b, In b (axes_of ws) -> exists a l, In a (axes_of vars) /\ a_name b = a_name a /\ selected N (a_axis a) (fun k r => In (k, r) kw) l /\ a_axis b = axis_take env (a_axis a) l /\
     sliced (a_axis a) l (a_axis b)) as Hback.
  { clearbody vars. clear -HFn. induction HFn as [|v w vs ws R _ IH]; intros b Hb; [destruct Hb|]. cbn in Hb. apply in_app_iff in Hb as [Hb|Hb].
    - destruct R as (_ & R2 & inds & R3 & R4 & R5 & _). apply In_nth_error in Hb as (i & Hi).
      assert (nth_error (map a_axis (v_axes w)) i = Some (a_axis b)) as H1 by now rewrite nth_error_map, Hi. assert (nth_error (map a_name (v_axes w)) i = Some (a_name b)) as H2 by now rewrite nth_error_map, Hi.
      rewrite R2, nth_error_map in H2. rewrite R4, nth_error_map, nth_error_combine, nth_error_map in H1. destruct (nth_error (v_axes v) i) as [a|] eqn:Ea; [|discriminate]. cbn in H1, H2.
      destruct (nth_error inds i) as [l|] eqn:El; [|discriminate]. cbn in H1. exists a, l. split; [cbn; apply in_app_iff; left; eapply nth_error_In; eassumption|]. split; [congruence|].
      split; [exact (Forall2_nth_error _ _ _ _ _ _ R3 Ea El)|]. split; [congruence|]. replace (a_axis b) with (axis_take env (a_axis a) l) by congruence. exact (Forall2_nth_error _ _ _ _ _ _ R5 Ea El).
    - destruct (IH b Hb) as (a & l & K1 & K). exists a, l. split; [cbn; apply in_app_iff; now right|exact K]. }
  assert (forall b c, In b (axes_of ws) -> In c (axes_of ws) -> a_name b = a_name c -> a_axis b = a_axis c) as Hsame.
  { intros b c Hb Hc En. destruct (Hback b Hb) as (a & l & A1 & A2 & A3 & A4 & _), (Hback c Hc) as (a' & l' & B1 & B2 & B3 & B4 & _).
    assert (a = a') as <- by (apply Hwell; auto; congruence). rewrite A4, B4, (selected_same _ _ _ _ _ A3 B3). reflexivity. }
  assert (forall b c, In b (axes_of ws) -> In c (axes_of ws) -> a_name b = a_name c -> agree b c) as Hagree.
  { intros b c Hb Hc En. right. rewrite (Hsame b c Hb Hc En). apply axis_eq_self. destruct (Hback c Hc) as (a & l & A1 & _ & _ & _ & A5). eapply sliced_self_equal; [exact A5|now apply Hself]. }
  assert (map v_name ws = map v_name vars) as Hnames. { clear -HFn. induction HFn as [|v w vs ws R _ IH]; [reflexivity|]. cbn. rewrite IH. f_equal. apply R. }
  destruct Hwell as (W1 & W2 & W3). rewrite <- Hnames in W1, W2.
  destruct (C44_contents V env junk enc next' ws Henv Hob') as (ds' & Eds & HL & Hcont). exists ds'. split; [exact Eds|]. split.
  - apply (C44_made V env junk enc next' ws ds' Henv Hob'); [| |exact Eds].
    + intros n. rewrite default_same by exact W2. destruct (occurrences_nodup n _ W1). lia.
    + intros hs Hi Hp. destruct hs as [|h [|h' hs]]; [cbn; lia|cbn; lia|]. exfalso. destruct (Hp 0%nat 1%nat h h') as [K1 K2]; [lia|reflexivity|reflexivity|].
      apply K2. apply Hagree; [apply Hi; right; now left|apply Hi; now left|congruence].
  - apply Forall2_intro_nth; [rewrite HL; exact (ArrProofs.Forall2_len _ _ _ HFn)|]. intros i v u Hv Hu.
    destruct (nth_error ws i) as [w|] eqn:Ew.
    2:{ exfalso. apply nth_error_None in Ew. assert (nth_error (ds_vars ds') i <> None) as K by congruence. apply nth_error_Some in K. lia. }
    destruct (Forall2_nth_error _ _ _ _ _ _ HFn Hv Ew) as (R1 & R2 & inds & R3 & R4 & R5 & R6).
    destruct (Hcont i w Ew) as (u' & Hu' & Hst & Hnm & Hget). rewrite Hu in Hu'. injection Hu' as <-.
    assert (Forall2 (fun a b => a_name b = a_name a /\ a_axis b = a_axis a) (v_axes w) (v_axes u)) as Hst'.
    { assert (incl (v_axes w) (axes_of ws)) as Hiw by (intros x Hx; eapply in_axes_of; [eapply nth_error_In; exact Ew|exact Hx]). clear -Hst Hiw Hagree Hsame.
      induction Hst as [|a b A B Hab _ IH]; [constructor|]. constructor; [|apply IH; intros x Hx; apply Hiw; now right]. destruct Hab as (r & Hr & Hn & _ & _ & Heq).
      rewrite Heq; [|intros x y Hx Hy Ex Ey; apply Hagree; auto; congruence]. split; [exact Hn|]. apply Hsame; auto. apply Hiw. now left. }
    assert (map a_axis (v_axes u) = map a_axis (v_axes w) /\ map a_name (v_axes u) = map a_name (v_axes w)) as [Hax Han].
    { clear -Hst'. induction Hst' as [|a b A B [H1 H2] _ [IH1 IH2]]; [split; reflexivity|]. cbn. rewrite H1, H2, IH1, IH2. split; reflexivity. }
    split; [rewrite <- R1; apply Hnm; [intros K; apply W2; rewrite <- K; apply in_map; eapply nth_error_In; exact Ew|rewrite default_same by exact W2; apply occurrences_nodup; [exact W1|apply in_map; eapply nth_error_In; exact Ew]]|].
    split; [now rewrite Han|]. exists inds. split; [exact R3|]. split.
    + assert (map a_axis (v_axes u) = map (fun '(a, l) => axis_take env a l) (combine (map a_axis (v_axes v)) inds)) as Hu2 by congruence. clear -R5 Hu2. revert Hu2. generalize (v_axes u). induction R5 as [|a l axes inds Ha _ IH]; intros us Hu2.
      * destruct us; [constructor|discriminate].
      * destruct us as [|b us]; [discriminate|]. cbn [combine map] in *. injection Hu2 as H1 H2. constructor; [rewrite H1; exact Ha|now apply IH].
    + intros D HD. exists (fun p => D (gather inds p)). split; [|intros p q Hpq; f_equal; symmetry; now apply picks_gather].
      pose proof (R6 D HD) as [[Hrep Hsep] Hg]. split.
      * apply Hget; [rewrite Hax; exact Hsep|]. split; assumption.
      * unfold var_of in *. cbn [var_axes] in *. rewrite Hax. exact Hg.
Qed.
Print Assumptions C69_select.

(** load(): the same dataset, with all data in memory *)
Theorem C69_load : forall V env (junk : list Z -> V) enc next ds, env_ok env -> objects (axes_of (ds_vars ds)) next -> well_named (ds_vars ds) ->
  Forall (fun v => exists D, responds env (var_of v) D) (ds_vars ds) ->
  exists ds', ds_load env junk enc next ds = Some ds' /\
    Forall2 (fun v w => v_name w = v_name v /\ v_axes w = v_axes v /\ (exists a, v_source w = Values a) /\ forall D, responds env (var_of v) D -> responds env (var_of w) D)
      (ds_vars ds) (ds_vars ds').
Proof.
  intros V env junk enc next ds Henv Hob Hwell HF. unfold ds_load, ds_map.
  assert (forall vars, Forall (fun v => exists D, responds env (var_of v) D) vars -> exists ws, map_vars (load_obj env junk) next vars = Some (ws, next) /\
    Forall2 (fun v w => v_name w = v_name v /\ v_axes w = v_axes v /\ (exists a, v_source w = Values a) /\ forall D, responds env (var_of v) D -> responds env (var_of w) D) vars ws) as Hmap.
  { clear -Henv. induction 1 as [|v vars (D0 & HD0) _ (ws & E & IH)]; [exists []; split; [reflexivity|constructor]|].
    destruct (load_responds env Henv junk (var_of v) D0 HD0) as (y & Hy & Hax & _).
    exists (MkVar (v_name v) (v_axes v) (var_source y) :: ws). split; [cbn [map_vars]; unfold load_obj at 1; rewrite Hy; cbn [bind]; rewrite E; reflexivity|]. constructor; [|exact IH].
    split; [reflexivity|]. split; [reflexivity|]. split.
    - cbn [v_source]. unfold ReduceModel.load in Hy. destruct (var_source (var_of v)) as [a|f|f] eqn:Es; [injection Hy as <-; eauto| |]; destruct (var_get env junk (var_of v)); inversion Hy; subst; eexists; reflexivity.
    - intros D HD. destruct (load_responds env Henv junk (var_of v) D HD) as (y' & Hy' & _ & G). rewrite Hy in Hy'. injection Hy' as <-.
      unfold var_of in *. cbn [v_axes v_source var_axes] in *. rewrite <- Hax. destruct y as [ya ys]. cbn [var_axes var_source]. now apply getable_responds. }
  destruct (Hmap (ds_vars ds) HF) as (ws & -> & Hws). cbn [bind].
  assert (map v_name ws = map v_name (ds_vars ds) /\ axes_of ws = axes_of (ds_vars ds)) as [En Ea].
  { clear -Hws. induction Hws as [|v w vs ws (H1 & H2 & _) _ [IH1 IH2]]; [split; reflexivity|]. cbn. unfold axes_of in *. now rewrite H1, H2, IH1, IH2. }
  destruct (well_named_objects ws next) with (env := env) (junk := junk) (enc := enc) as (ds' & Eds & Ev); [|rewrite Ea; exact Hob|exact Henv|].
  - destruct Hwell as (W1 & W2 & W3). split; [now rewrite En|]. split; [now rewrite En|]. now rewrite Ea.
  - exists ds'. split; [exact Eds|]. now rewrite Ev.
Qed.
Print Assumptions C69_load.

(** *** the hypotheses are met: two variables that share axis lon; i_lat concerns only the first *)
Definition lon_obj : axobj := MkAx 2 "lon" lon3.
Definition two_vars : list (vobj Z) :=
  [MkVar "t" [lat_obj; lon_obj] (var_source blocks); MkVar "u" [lon_obj] (Values (Arr [3] (fun p => 100 + nth 0 p 0)))].
Definition two_ds : @dataset Z := MkDs two_vars [lat_obj; lon_obj].
Definition two_kw : list (string * request) := [("lon"%string, One (Int 4)); ("i_lat"%string, One (Int 1))].
Definition seen (ds : option (@dataset Z)) :=
  option_map (fun ds => map (fun w => (v_name w, map a_name (v_axes w), map a_id (v_axes w), map (fun a => axis_vals (a_axis a)) (v_axes w), option_map (fun r => (shape r, val r (map (fun _ => 0) (v_axes w)))) (var_get env0 (fun _ => 0) (var_of w)))) (ds_vars ds)) ds.
Lemma two_parse axes k p ax : call_named names axes k p ax ->
  (if has_axis names axes k then (EmptyString, k) else match split_key k with Some pr => pr | None => (EmptyString, k) end) = (p, ax).
Proof. apply call_parse. Qed.
Lemma two_selectable : Forall (selectable names env0 two_kw) two_vars.
Proof.
  assert (forall axes, axes = [lat2; lon3] \/ axes = [lon3] -> plain_keys names axes two_kw) as Hplain.
  { intros axes Hax. split.
    - constructor; [|constructor; [|constructor]]; (split; [reflexivity|]); [exists EmptyString, "lon"%string|exists "i"%string, "lat"%string]; (split; [apply call_parse; destruct Hax as [-> | ->]; vm_compute; reflexivity|reflexivity]).
    - intros kv ax [<-|[<-|[]]]; split; intros (p & Hp & L); apply two_parse in Hp; apply has_letter_spec in L; destruct Hax as [-> | ->]; vm_compute in Hp; injection Hp as <- <-; vm_compute in L; discriminate. }
  assert (forall axes, axes = [lat2; lon3] \/ axes = [lon3] -> good_keywords names axes two_kw) as Hgood.
  { intros axes Hax j a k v p ax Ha [Hin _] Hk Hc. assert (a = lat2 \/ a = lon3) as Hal. { apply nth_error_In in Ha. destruct Hax as [-> | ->]; cbn in Ha; intuition congruence. } clear Ha Hax.
    destruct Hin as [E|[E|[]]]; injection E as <- <-; apply parse_named in Hk; (destruct Hal as [-> | ->]); vm_compute in Hk; injection Hk as <- <-; split; intros Hi;
      try (exfalso; apply has_letter_spec in Hi; vm_compute in Hi; discriminate); try (exfalso; apply Hi; apply has_letter_spec; vm_compute; reflexivity).
    - cbn. intros _. split; [reflexivity|discriminate].
    - cbn. intros _. split; [reflexivity|discriminate].
    - cbn. lia.
    - cbn. lia. }
  pose proof names_full as Hf. inversion Hf as [|? ? F1 F2]; subst.
  constructor; [|constructor; [|constructor]].
  - split; [exists table; exact (blocks_holds env0)|]. split; [exact Hf|]. split; [apply Hplain; now left|apply Hgood; now left].
  - split; [|split; [exact F2|split; [apply Hplain; now right|apply Hgood; now right]]].
    exists (fun p => 100 + nth 0 p 0). split; [split|].
    + split; [reflexivity|]. intros p _. reflexivity.
    + intros [|i] [|j] a b Ha Hb Hne; cbn in Ha, Hb; try congruence; destruct i + destruct j; discriminate.
    + constructor; [exact lon3_good|constructor].
Qed.
Example C69_select_example :
  objects (axes_of two_vars) 1000 /\ well_named two_vars /\ NoDup (map fst two_kw) /\ Forall (selectable names env0 two_kw) two_vars /\
  (forall a, In a (axes_of two_vars) -> self_equal (a_axis a)) /\ one_axis_each names (axes_of two_vars) two_kw /\
  seen (ds_select names env0 (fun _ => 0) enc0 two_kw 1000 two_ds) =
    Some [("t", ["lat"; "lon"], [1000; 1001], [[20]; [5]]%Q, Some ([1; 1], 11)); ("u", ["lon"], [1001], [[5]]%Q, Some ([1], 101))]%string.
Proof.
  assert (forall a, In a (axes_of two_vars) -> a = lat_obj \/ a = lon_obj) as Hin by (intros a Ha; cbn in Ha; intuition congruence).
  split; [split; [intros a b Ha Hb E; apply Hin in Ha, Hb; destruct Ha as [-> | ->], Hb as [-> | ->]; reflexivity || discriminate|intros a Ha; apply Hin in Ha as [-> | ->]; reflexivity]|].
  split; [split; [repeat constructor; cbn; intuition discriminate|split; [cbn; intuition discriminate|intros a b Ha Hb E; apply Hin in Ha, Hb; destruct Ha as [-> | ->], Hb as [-> | ->]; reflexivity || discriminate]]|].
  split; [repeat constructor; cbn; intuition discriminate|]. split; [exact two_selectable|]. split; [intros a Ha; apply Hin in Ha as [-> | ->]; discriminate|]. split.
  - intros k a b Hk Ha Hb (p & ax & H1 & C1) (p' & ax' & H2 & C2). apply Hin in Ha, Hb. apply parse_named in H1, H2.
    destruct Hk as [<-|[<-|[]]], Ha as [-> | ->], Hb as [-> | ->]; try reflexivity; exfalso; vm_compute in H1, H2; injection H1 as <- <-; injection H2 as <- <-.
    all: clear -C1 C2; destruct C1 as [[L E]|[L (vals & [[E _]|[_ E]])]]; try (vm_compute in E; discriminate); try (apply L; apply has_letter_spec; vm_compute; reflexivity); try (apply has_letter_spec in L; vm_compute in L; discriminate).
    all: destruct C2 as [[L2 E2]|[L2 (vals2 & [[E2 _]|[_ E2]])]]; try (vm_compute in E2; discriminate); try (apply L2; apply has_letter_spec; vm_compute; reflexivity); try (apply has_letter_spec in L2; vm_compute in L2; discriminate).
  - vm_compute. reflexivity.
Qed.
Example C69_load_example : Forall (fun v => exists D, responds env0 (var_of v) D) two_vars.
Proof. eapply Forall_impl; [|exact two_selectable]. intros v ((D & HD) & _). exists D. apply (getable_responds env0 _). exact (proj1 HD). Qed.

(** *** limits: a DummyAxis (which has no class and no meaning, only a length) equals no DummyAxis.  Two variables that share one have two different ones
    after a selection, with new names. *)
Definition dummy_obj : axobj := MkAx 7 "x" (Coord (MkCoord Dummy [3] 3 [0; 1; 2; 3]%Q [] [] (1 # 100000))).
Definition dummy_names : naming := Naming (fun a k => match a with Coord c => match c_class c with [3] => String.eqb k "x" | _ => false end | _ => false end) (fun _ _ => None) (fun _ _ => true).
Definition dummy_vars : list (vobj Z) := [MkVar "t" [dummy_obj] (Values (Arr [4] (fun p => nth 0 p 0))); MkVar "u" [dummy_obj] (Values (Arr [4] (fun p => 100 + nth 0 p 0)))].
Theorem C69_dummy_refuted : exists ds', objects (axes_of dummy_vars) 1000 /\ well_named dummy_vars /\
  ds_select dummy_names env0 (fun _ => 0) enc0 [("i_x"%string, Several [Int 0; Int 2])] 1000 (MkDs dummy_vars [dummy_obj]) = Some ds' /\
  map (fun w => map a_name (v_axes w)) (ds_vars ds') = [["x01"]; ["x02"]]%string.
Proof.
  destruct (ds_select dummy_names env0 (fun _ => 0) enc0 [("i_x"%string, Several [Int 0; Int 2])] 1000 (MkDs dummy_vars [dummy_obj])) as [ds'|] eqn:E.
  - exists ds'. assert (forall a, In a (axes_of dummy_vars) -> a = dummy_obj) as Hin by (intros a Ha; cbn in Ha; intuition congruence).
    split; [split; [intros a b Ha Hb _; now rewrite (Hin a Ha), (Hin b Hb)|intros a Ha; rewrite (Hin a Ha); reflexivity]|].
    split; [split; [repeat constructor; cbn; intuition discriminate|split; [cbn; intuition discriminate|intros a b Ha Hb _; now rewrite (Hin a Ha), (Hin b Hb)]]|].
    split; [reflexivity|]. assert (option_map (fun ds => map (fun w => map a_name (v_axes w)) (ds_vars ds))
      (ds_select dummy_names env0 (fun _ => 0) enc0 [("i_x"%string, Several [Int 0; Int 2])] 1000 (MkDs dummy_vars [dummy_obj])) = Some [["x01"]; ["x02"]]%string) as K by (vm_compute; reflexivity).
    rewrite E in K. cbn [option_map] in K. now injection K.
  - exfalso. assert (match ds_select dummy_names env0 (fun _ => 0) enc0 [("i_x"%string, Several [Int 0; Int 2])] 1000 (MkDs dummy_vars [dummy_obj]) with Some _ => true | None => false end = true) as K by (vm_compute; reflexivity).
    rewrite E in K. discriminate.
Qed.
Print Assumptions C69_dummy_refuted.
