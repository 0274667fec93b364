(** C70: renaming, replacing and keeping variables of a dataset; renaming its axes. *)
From Coq Require Import ZArith List Bool Lia QArith_base String Ascii.
From Verif Require Import SortSpec IndexModel IndexSpec IndexProofs ArrModel ArrProofs ViewModel ViewSpec ViewProofs AxisModel AxisSpec AxisProofs VarOpsModel VarOpsSpec VarOpsProofs
  ReduceSpec RespondProofs StencilModel SelectModel SelectSpec SelectProofs DatasetModel DatasetSpec DatasetProofs DatasetProps CallProofs EnvExample ViewProps VarOpsProps StencilProps SelectProps DsMapModel DsMapSpec DsMapProofs DsMapProps DsNameModel DsNameProofs.
Import ListNotations.
Open Scope Z_scope.
Open Scope list_scope.

(** the name after rename_vars(old=new, ...) *)
Definition after (vardict : list (string * string)) (n : string) : string := match assoc n vardict with Some m => m | None => n end.
Theorem C70_rename_vars : forall V env (junk : list Z -> V) enc next ds vardict, env_ok env -> objects (axes_of (ds_vars ds)) next -> well_named (ds_vars ds) ->
  NoDup (map (fun v => after vardict (v_name v)) (ds_vars ds)) -> ~ In ""%string (map (fun v => after vardict (v_name v)) (ds_vars ds)) ->
  exists ds', ds_rename env junk enc next ds vardict = Some ds' /\ well_named (ds_vars ds') /\
    Forall2 (fun v w => v_name w = after vardict (v_name v) /\ v_axes w = v_axes v /\ forall D, responds env (var_of v) D -> responds env (var_of w) D) (ds_vars ds) (ds_vars ds').
Proof.
  intros V env junk enc next ds vardict Henv Hob (_ & _ & W3) N1 N2. unfold ds_rename.
  match goal with |- context [make_dataset env junk enc next ?l] => set (ws := l) end.
  assert (map v_name ws = map (fun v => after vardict (v_name v)) (ds_vars ds) /\ axes_of ws = axes_of (ds_vars ds)) as [En Ea].
  { subst ws. clear. unfold axes_of. induction (ds_vars ds) as [|v l [IH1 IH2]]; [split; reflexivity|]. cbn [map flat_map]. rewrite IH1, IH2. unfold after. destruct (assoc (v_name v) vardict); split; reflexivity. }
  assert (well_named ws) as Hw by (split; [now rewrite En|split; [now rewrite En|now rewrite Ea]]).
  destruct (well_named_objects ws next Hw) with (env := env) (junk := junk) (enc := enc) as (ds' & Eds & Ev); [now rewrite Ea|exact Henv|].
  exists ds'. split; [exact Eds|]. rewrite Ev. split; [exact Hw|]. subst ws. clear -Henv. induction (ds_vars ds) as [|v l IH]; [constructor|]. cbn [map]. constructor; [|exact IH].
  unfold after. destruct (assoc (v_name v) vardict); [|split; [reflexivity|split; [reflexivity|auto]]]. split; [reflexivity|]. split; [reflexivity|].
  intros D HD. exact (rename_keeps env Henv junk (var_of v) D HD).
Qed.
Print Assumptions C70_rename_vars.

(** replace_vars(name=var, ...): the variables given are put at the places of those named - under their own names *)
Theorem C70_replace_vars : forall V env (junk : list Z -> V) enc next ds vardict ws, env_ok env ->
  Forall2 (fun v w => (exists pre post, vardict = pre ++ (v_name v, w) :: post /\ ~ In (v_name v) (map fst pre)) \/ (w = v /\ ~ In (v_name v) (map fst vardict))) (ds_vars ds) ws ->
  objects (axes_of ws) next -> well_named ws ->
  exists ds', ds_replace env junk enc next ds vardict = Some ds' /\ ds_vars ds' = ws.
Proof.
  intros V env junk enc next ds vardict ws Henv HF Hob Hw. unfold ds_replace.
  replace (map _ (ds_vars ds)) with ws; [now apply well_named_objects|]. clear Hob Hw. induction HF as [|v w vs ws H _ IH]; [reflexivity|]. cbn [map]. rewrite IH. f_equal. clear IH.
  destruct H as [(pre & post & -> & H)|[-> H]].
  - induction pre as [|[n x] pre IH]; cbn [lookup_var app]; [now rewrite String.eqb_refl|]. destruct (String.eqb_spec n (v_name v)) as [->|]; [exfalso; apply H; now left|]. apply IH. intros K. apply H. now right.
  - induction vardict as [|[n x] l IH]; [reflexivity|]. cbn [lookup_var]. destruct (String.eqb_spec n (v_name v)) as [->|]; [exfalso; apply H; now left|]. apply IH. intros K. apply H. now right.
Qed.
Print Assumptions C70_replace_vars.

(** the whitelist: exactly the listed variables that exist, unchanged, in the order of the list *)
Theorem C70_whitelist : forall V env (junk : list Z -> V) enc next ds varlist, env_ok env -> objects (axes_of (ds_vars ds)) next -> well_named (ds_vars ds) -> NoDup varlist ->
  exists ds', whitelist env junk enc next ds varlist = Some ds' /\ incl (ds_vars ds') (ds_vars ds) /\
    map v_name (ds_vars ds') = filter (fun n => existsb (String.eqb n) (map v_name (ds_vars ds))) varlist.
Proof.
  intros V env junk enc next ds varlist Henv [Ho1 Ho2] (W1 & W2 & W3) Hnd. unfold whitelist.
  match goal with |- context [make_dataset env junk enc next ?l] => remember l as ws eqn:Ews end.
  assert (incl ws (ds_vars ds) /\ map v_name ws = filter (fun n => existsb (String.eqb n) (map v_name (ds_vars ds))) varlist) as [Hin Hn].
  { subst ws. clear -W1. induction varlist as [|n l [IH1 IH2]]; [split; [intros v []|reflexivity]|]. cbn [flat_map filter].
    destruct (named_var ds n) as [v|] eqn:E.
    - unfold named_var in E. pose proof (find_some _ _ E) as [E1 E2]. apply in_rev in E1. apply String.eqb_eq in E2. subst n.
      replace (existsb (String.eqb (v_name v)) (map v_name (ds_vars ds))) with true; [|symmetry; apply existsb_exists; exists (v_name v); split; [now apply in_map|apply String.eqb_refl]].
      split; [intros w [<-|Hw]; [exact E1|now apply IH1]|]. cbn [map app]. now rewrite IH2.
    - replace (existsb (String.eqb n) (map v_name (ds_vars ds))) with false; [split; [exact IH1|exact IH2]|]. symmetry. apply not_true_is_false. intros K. apply existsb_exists in K as (m & Hm & K). apply String.eqb_eq in K. subst m.
      apply in_map_iff in Hm as (v & <- & Hv). unfold named_var in E. pose proof (find_none _ _ E v (proj1 (in_rev _ _) Hv)) as K'. cbv beta in K'. rewrite String.eqb_refl in K'. discriminate. }
  assert (incl (axes_of ws) (axes_of (ds_vars ds))) as Ha. { intros a Ha. apply in_flat_map in Ha as (v & Hv & Ha). eapply in_axes_of; [apply Hin; exact Hv|exact Ha]. }
  assert (well_named ws) as Hw.
  { split; [rewrite Hn; now apply NoDup_filter|]. split; [intros K; apply W2; apply in_map_iff in K as (v & <- & Hv); apply in_map; now apply Hin|]. intros a b H1 H2. apply W3; auto. }
  destruct (well_named_objects ws next Hw) with (env := env) (junk := junk) (enc := enc) as (ds' & Eds & Ev); [split; [intros a b H1 H2; apply Ho1; auto|intros a H1; apply Ho2; auto]|exact Henv|].
  exists ds'. split; [exact Eds|]. rewrite Ev. split; [exact Hin|exact Hn].
Qed.
Print Assumptions C70_whitelist.

(** the new name the axis at position [i] gets from rename_axes(n1=n2, ...): from the last entry that means it; None: it is not renamed *)
Definition renaming (N : naming) (axes : list axis) (namemap : list (string * string)) (i : nat) (t : option string) : Prop :=
  match t with
  | Some n2 => exists pre n1 post, namemap = pre ++ (n1, n2) :: post /\ first_axis N axes n1 i /\ forall m, In m post -> ~ first_axis N axes (fst m) i
  | None => forall m, In m namemap -> ~ first_axis N axes (fst m) i
  end.
Definition name_after (nm : axobj -> option string) (a : axobj) : string := match nm a with Some n => n | None => a_name a end.
(** Renaming axes in a dataset renames an axis once: variables that shared it share the renamed one.
    [nm]: the new names, the same for all variables that have the axis; different axes get different names *)
Theorem C70_rename_axes : forall V N env (junk : list Z -> V) enc next ds namemap nm, env_ok env -> objects (axes_of (ds_vars ds)) next -> well_named (ds_vars ds) ->
  (forall v i a t, In v (ds_vars ds) -> nth_error (v_axes v) i = Some a -> renaming N (map a_axis (v_axes v)) namemap i t -> t = nm a) ->
  (forall a b, In a (axes_of (ds_vars ds)) -> In b (axes_of (ds_vars ds)) -> name_after nm a = name_after nm b -> a = b) ->
  (forall a, In a (axes_of (ds_vars ds)) -> nm a <> None -> self_equal (a_axis a)) ->
  exists ds', ds_rename_axes N env junk enc namemap next ds = Some ds' /\ well_named (ds_vars ds') /\
    Forall2 (fun v w => v_name w = v_name v /\
      Forall2 (fun a b => a_name b = name_after nm a /\ a_axis b = match nm a with Some n => rename_axis enc n (a_axis a) | None => a_axis a end) (v_axes v) (v_axes w) /\
      forall D, separate (map a_axis (v_axes w)) -> responds env (var_of v) D -> responds env (var_of w) D) (ds_vars ds) (ds_vars ds').
Proof.
  intros V N env junk enc next ds namemap nm Henv Hob (W1 & W2 & W3) Hnm Hinj Hself. unfold ds_rename_axes, ds_map.
  set (R := fun v w : vobj V => v_name w = v_name v /\ Forall2 (fun a b => renamed_as enc a (nm a) b) (v_axes v) (v_axes w) /\
      forall D, separate (map a_axis (v_axes w)) -> responds env (var_of v) D -> responds env (var_of w) D).
  destruct (map_thread (rename_axes_obj N env junk enc namemap) (fun v => In v (ds_vars ds)) R) with (P := axes_of (ds_vars ds)) (next0 := next) (vars := ds_vars ds) (next := next)
    as (ws & next' & E & Hle & HF & Hin & Hid); [|exact Hob|intros a H; exact H|lia|apply Forall_forall; auto|].
  { intros k v Hv. unfold rename_axes_obj. cbv zeta. match goal with |- context [rename_objs enc k (v_axes v) ?t] => remember t as ts eqn:Ets end. assert (List.length ts = List.length (v_axes v)) as Lts by (subst ts; now rewrite map_length, seq_length, map_length).
    destruct (rename_objs enc k (v_axes v) ts) as [objs k'] eqn:Eo.
    destruct (rename_objs_spec enc (v_axes v) k ts objs k' Lts Eo) as (H1 & H2 & H3 & H4 & H5).
    pose proof (renamed_len enc (v_axes v) ts objs Lts H2) as Hlen.
    assert (exists y, replace_axes env junk (var_of v) (map a_axis objs) = Some y /\ var_axes y = map a_axis objs) as (y & Ey & Ay).
    { unfold replace_axes. replace (_ && _) with true; [eexists; split; reflexivity|]. symmetry. apply andb_true_iff. cbn [var_of var_axes]. split.
      - apply Nat.eqb_eq. now rewrite !map_length, H3.
      - clear -Hlen. revert Hlen. generalize (v_axes v). induction objs as [|b objs IH]; intros [|a l] H; try discriminate; [reflexivity|]. cbn [map combine forallb] in *. injection H as Ha Hl. rewrite (IH l Hl), Ha, Z.eqb_refl. reflexivity. }
    rewrite Ey. cbn [bind]. exists (MkVar (v_name v) objs (var_source y)), k'. split; [reflexivity|]. split; [|split; [exact H1|split; [exact H4|exact H5]]].
    split; [reflexivity|]. split.
    - cbn [v_axes]. apply Forall2_intro_nth; [now rewrite H3|]. intros i a b Ha Hb.
      subst ts. assert (nth_error (combine (v_axes v) (map (new_name N (map a_axis (v_axes v)) namemap) (seq 0 (List.length (map a_axis (v_axes v)))))) i = Some (a, new_name N (map a_axis (v_axes v)) namemap i)) as Hc.
      { assert (i < List.length (v_axes v))%nat as Hi by (apply nth_error_Some; congruence). rewrite nth_error_combine, Ha, nth_error_map, nth_error_seq, map_length. destruct (Nat.ltb_spec i (List.length (v_axes v))); [reflexivity|lia]. }
      pose proof (Forall2_nth_error _ _ _ _ _ _ H2 Hc Hb) as K. cbv beta iota in K. rewrite <- (Hnm v i a (new_name N (map a_axis (v_axes v)) namemap i) Hv Ha); [exact K|].
      pose proof (new_name_spec N (map a_axis (v_axes v)) namemap i) as S1. unfold renaming. destruct (new_name N _ namemap i) as [n2|].
      + destruct S1 as (pre & n1 & post & E1 & E2 & E3). exists pre, n1, post. split; [exact E1|]. split; [now apply which_axis_spec|]. intros [m1 m2] Hm F. apply (E3 m1 m2 Hm). now apply which_axis_spec.
      + intros [m1 m2] Hm F. apply (S1 m1 m2 Hm). now apply which_axis_spec.
    - intros D Hsep HD. unfold var_of at 1. cbn [v_axes v_source] in *. rewrite <- Ay. destruct y as [ya ys]. cbn [var_axes var_source] in *. apply (replace_keeps env Henv junk (var_of v) (map a_axis objs) D HD Hsep). exact Ey. }
  rewrite E. cbn [bind]. clear E.
  assert (forall b, In b (axes_of ws) -> exists a, In a (axes_of (ds_vars ds)) /\ renamed_as enc a (nm a) b) as Hback.
  { clear -HF. induction HF as [|v w vs ws (_ & H & _) _ IH]; intros b Hb; [destruct Hb|]. cbn in Hb. apply in_app_iff in Hb as [Hb|Hb].
    - destruct (ViewProofs.Forall2_In_r _ _ _ b H Hb) as (a & Ha & Hab). exists a. split; [cbn; apply in_app_iff; now left|exact Hab].
    - destruct (IH b Hb) as (a & Ha & Hab). exists a. split; [cbn; apply in_app_iff; now right|exact Hab]. }
  assert (forall a b, renamed_as enc a (nm a) b -> a_name b = name_after nm a) as Hna. { intros a b. unfold renamed_as, name_after. destruct (nm a); [tauto|now intros ->]. }
  assert (map v_name ws = map v_name (ds_vars ds)) as Hnames. { clear -HF. induction HF as [|v w vs ws (H & _) _ IH]; [reflexivity|]. cbn. now rewrite IH, H. }
  destruct (make_agreeing env junk enc next' ws Henv) as (ds' & Eds & Hwell & HS).
  { split; [exact Hid|]. intros a Ha. destruct (Hin a Ha) as [K|K]; [pose proof (proj2 Hob a K); lia|lia]. }
  { now rewrite Hnames. } { now rewrite Hnames. }
  { intros b c Hb Hc En. destruct (Hback b Hb) as (a & Ha & Rb), (Hback c Hc) as (a' & Ha' & Rc). assert (a = a') as <-. { apply Hinj; auto. rewrite <- (Hna _ _ Rb), <- (Hna _ _ Rc). exact En. }
    unfold renamed_as in Rb, Rc. destruct (nm a) as [n|] eqn:En'; [|left; congruence]. right. destruct Rb as [_ Rb], Rc as [_ Rc]. split; [congruence|]. rewrite Rb. apply rename_self_equal. apply Hself; [exact Ha|congruence]. }
  exists ds'. split; [exact Eds|]. split; [exact Hwell|]. apply Forall2_intro_nth; [rewrite (ArrProofs.Forall2_len _ _ _ HF); exact (ArrProofs.Forall2_len _ _ _ HS)|]. intros i v u Hv Hu.
  destruct (nth_error ws i) as [w|] eqn:Ew.
  2:{ exfalso. apply nth_error_None in Ew. assert (nth_error (ds_vars ds') i <> None) as K by congruence. apply nth_error_Some in K. rewrite <- (ArrProofs.Forall2_len _ _ _ HS) in K. lia. }
  destruct (Forall2_nth_error _ _ _ _ _ _ HF Hv Ew) as (R1 & R2 & R3). destruct (Forall2_nth_error _ _ _ _ _ _ HS Ew Hu) as (S1 & S2 & S3 & S4).
  split; [congruence|]. split.
  - clear -R2 S2 S3 Hna. revert S2 S3. generalize (v_axes u). induction R2 as [|a b A B Hab _ IH]; intros us S2 S3; destruct us as [|c us]; try discriminate; [constructor|]. cbn [map] in S2, S3. injection S2 as E1 E2. injection S3 as E3 E4. constructor; [|now apply IH].
    split; [rewrite E1; now apply Hna|]. rewrite E3. unfold renamed_as in Hab. destruct (nm a); [tauto|now subst].
  - intros D Hsep HD. apply S4. apply R3; [|exact HD]. now rewrite <- S3.
Qed.
Print Assumptions C70_rename_axes.

(** there is only one new name for each axis *)
Lemma renaming_unique N axes namemap i t t' : renaming N axes namemap i t -> renaming N axes namemap i t' -> t = t'.
Proof.
  assert (forall p q (x y : string * string) r u, p ++ x :: r = q ++ y :: u -> x = y \/ In x u \/ In y r) as K.
  { clear. induction p as [|z p IH]; intros [|w q] x y r u E; cbn [app] in E; injection E as E0 E1; subst; [now left| | |now apply (IH q)].
    - right. right. apply in_or_app. right. now left.
    - right. left. apply in_or_app. right. now left. }
  unfold renaming. destruct t as [n|], t' as [m|]; try reflexivity.
  - intros (pre & n1 & post & -> & F & L) (pre' & n1' & post' & E & F' & L'). destruct (K _ _ _ _ _ _ E) as [H|[H|H]]; [congruence| |]; exfalso; [apply (L' _ H F)|apply (L _ H F')].
  - intros (pre & n1 & post & -> & F & L) H. exfalso. apply (H (n1, n)); [apply in_or_app; right; now left|exact F].
  - intros H (pre & n1 & post & -> & F & L). exfalso. apply (H (n1, m)); [apply in_or_app; right; now left|exact F].
Qed.

(** *** the hypotheses are met: two variables that share lon, the first also has lat *)
Definition two_map : list (string * string) := [("lon", "longitude"); ("lev", "p"); ("lon", "x")]%string.
Definition two_nm (a : axobj) : option string := if String.eqb (a_name a) "lon" then Some "x"%string else None.
Example C70_example :
  objects (axes_of two_vars) 1000 /\ well_named two_vars /\
  (forall v i a t, In v two_vars -> nth_error (v_axes v) i = Some a -> renaming names (map a_axis (v_axes v)) two_map i t -> t = two_nm a) /\
  (forall a b, In a (axes_of two_vars) -> In b (axes_of two_vars) -> name_after two_nm a = name_after two_nm b -> a = b) /\
  (forall a, In a (axes_of two_vars) -> two_nm a <> None -> self_equal (a_axis a)) /\
  seen (ds_rename_axes names env0 (fun _ => 0) enc0 two_map 1000 two_ds) =
    Some [("t", ["lat"; "x"], [1; 1000], [[10; 20]; [0; 5; 7]]%Q, Some ([2; 3], 0)); ("u", ["x"], [1000], [[0; 5; 7]]%Q, Some ([3], 100))]%string /\
  seen (ds_rename env0 (fun _ => 0) enc0 1000 two_ds [("t", "u"); ("u", "t")]%string) =
    Some [("u", ["lat"; "lon"], [1; 2], [[10; 20]; [0; 5; 7]]%Q, Some ([2; 3], 0)); ("t", ["lon"], [2], [[0; 5; 7]]%Q, Some ([3], 100))]%string /\
  option_map (fun d => map v_name (ds_vars d)) (whitelist env0 (fun _ => 0) enc0 1000 two_ds ["v"; "u"; "t"]%string) = Some ["u"; "t"]%string /\
  option_map (fun d => map v_name (ds_vars d)) (ds_replace env0 (fun _ => 0) enc0 1000 two_ds [("u"%string, scalar "q" 3)]) = Some ["t"; "q"]%string.
Proof.
  assert (forall a, In a (axes_of two_vars) -> a = lat_obj \/ a = lon_obj) as Hin by (intros a Ha; cbn in Ha; intuition congruence).
  split; [split; [intros a b Ha Hb E; apply Hin in Ha, Hb; destruct Ha as [-> | ->], Hb as [-> | ->]; reflexivity || discriminate|intros a Ha; apply Hin in Ha as [-> | ->]; reflexivity]|].
  split; [split; [repeat constructor; cbn; intuition discriminate|split; [cbn; intuition discriminate|intros a b Ha Hb E; apply Hin in Ha, Hb; destruct Ha as [-> | ->], Hb as [-> | ->]; reflexivity || discriminate]]|].
  split; [|split; [intros a b Ha Hb; apply Hin in Ha, Hb; destruct Ha as [-> | ->], Hb as [-> | ->]; intros E; reflexivity || discriminate E|split; [intros a Ha _; apply Hin in Ha as [-> | ->]; discriminate|split; [|split; [|split]]; vm_compute; reflexivity]]].
  assert (forall axes i t, renaming names axes two_map i t -> t = new_name names axes two_map i) as Hdet.
  { intros axes i t H. apply (renaming_unique names axes two_map i); [exact H|]. pose proof (new_name_spec names axes two_map i) as S1. unfold renaming. destruct (new_name names axes two_map i) as [m2|].
    - destruct S1 as (pre & n1 & post & E1 & E2 & E3). exists pre, n1, post. split; [exact E1|]. split; [now apply which_axis_spec|]. intros [m1 k] Hm F. apply (E3 m1 k Hm). now apply which_axis_spec.
    - intros [m1 k] Hm F. apply (S1 m1 k Hm). now apply which_axis_spec. }
  intros v i a t [<-|[<-|[]]] Hi Ht; apply Hdet in Ht; subst t; (destruct i as [|[|i]]; cbn in Hi; [injection Hi as <-|try discriminate; injection Hi as <-|destruct i; discriminate]); vm_compute; reflexivity.
Qed.
