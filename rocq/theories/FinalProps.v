(** C72: opening a file with dimtypes, varlist and namemap. *)
From Coq Require Import ZArith List Bool Lia QArith_base String.
From Verif Require Import SortSpec IndexModel IndexSpec IndexProofs ArrModel ArrProofs ViewModel ViewSpec ViewProofs AxisModel AxisSpec AxisProofs VarOpsModel VarOpsSpec VarOpsProofs
  ReduceSpec RespondProofs StencilModel SelectModel SelectSpec SelectProofs DatasetModel DatasetSpec DatasetProofs DatasetProps CallProofs EnvExample ViewProps VarOpsProps StencilProps SelectProps DsMapModel DsMapSpec DsMapProofs DsMapProps DsNameModel DsNameProofs DsNameProps FinalModel FinalProofs.
Import ListNotations.
Open Scope Z_scope.
Open Scope list_scope.

(** the dataset holds each axis object of its variables once *)
Definition axes_listed {V} (ds : @dataset V) : Prop := NoDup (ds_axes ds) /\ forall a, In a (ds_axes ds) <-> In a (axes_of (ds_vars ds)).
(** the keys of dimtypes mean, in every variable, the axis with exactly that name and no other *)
Definition exact_keys {V} (N : naming) (dimtypes : list (string * dimtype)) (vars : list (vobj V)) : Prop :=
  forall v k i a, In v vars -> In k (map fst dimtypes) -> In k (map a_name (axes_of vars)) -> nth_error (v_axes v) i = Some a ->
    first_axis N (map a_axis (v_axes v)) k i <-> k = a_name a.

(** dimtypes: every axis of the file that is a key of dimtypes is replaced - one new axis for each, shared by the variables that shared the old one -
    all other axes, and all data (by position), stay *)
Theorem C72_dimtypes : forall V N env (junk : list Z -> V) enc next ds dimtypes, env_ok env ->
  objects (axes_of (ds_vars ds) ++ given dimtypes) next -> well_named (ds_vars ds) -> axes_listed ds -> exact_keys N dimtypes (ds_vars ds) ->
  Forall (fits dimtypes) (axes_of (ds_vars ds)) ->
  (forall a a' b b', In a (axes_of (ds_vars ds)) -> In a' (axes_of (ds_vars ds)) -> retyped dimtypes a b -> retyped dimtypes a' b' -> a_name b = a_name b' -> a = a') ->
  exists ds' g, set_axistypes N env junk enc next ds dimtypes = Some ds' /\ well_named (ds_vars ds') /\
    (forall a b, In a (axes_of (ds_vars ds')) -> In b (axes_of (ds_vars ds')) -> a_id a = a_id b -> a = b) /\
    (forall a, In a (axes_of (ds_vars ds)) -> retyped dimtypes a (g a) /\ axis_len (a_axis (g a)) = axis_len (a_axis a)) /\
    Forall2 (fun v w => v_name w = v_name v /\ v_axes w = map g (v_axes v) /\
      forall D, separate (map a_axis (v_axes w)) -> responds env (var_of v) D -> responds env (var_of w) D) (ds_vars ds) (ds_vars ds').
Proof.
  intros V N env junk enc next ds dimtypes Henv [Ho1 Ho2] (W1 & W2 & W3) [L1 L2] Hex Hfit Hdiff. unfold set_axistypes.
  destruct (replacements_spec dimtypes (ds_axes ds) next) as (r & next' & E & Hle & R1 & [R2 R2'] & R3 & R4 & R5).
  { clear -L1 L2 W3. assert (forall a, In a (ds_axes ds) -> In a (axes_of (ds_vars ds))) as H by (intros; now apply L2). clear L2. revert L1 H. induction (ds_axes ds) as [|a l IH]; intros L1 H; [constructor|]. inversion L1 as [|? ? K1 K2]; subst. cbn. constructor; [|apply IH; [exact K2|intros; apply H; now right]].
    intros K. apply in_map_iff in K as (b & En & Hb). apply K1. replace a with b; [exact Hb|]. apply W3; [apply H; now right|apply H; now left|exact En]. }
  { apply Forall_forall. intros a Ha. rewrite Forall_forall in Hfit. apply Hfit. now apply L2. }
  { intros b Hb. apply Ho2. apply in_app_iff. now right. }
  rewrite E. cbn [bind]. clear E. set (g := put_in r).
  assert (forall a, In a (axes_of (ds_vars ds)) -> retyped dimtypes a (g a) /\ axis_len (a_axis (g a)) = axis_len (a_axis a)) as Hg.
  { intros a Ha. pose proof (R3 a (proj2 (L2 a) Ha)) as K. unfold g, put_in. destruct (entry (a_name a) r); [exact K|]. split; [unfold retyped; now rewrite K|reflexivity]. }
  assert (forall k, In k (map fst r) -> In k (map fst dimtypes) /\ In k (map a_name (axes_of (ds_vars ds)))) as Hkey.
  { intros k Hk. split; [now apply R2'|]. pose proof (R2 k Hk) as Hn. apply in_map_iff in Hn as (a & En & Ha). apply in_map_iff. exists a. split; [exact En|now apply L2]. }
  destruct (replace_all N env Henv junk r (ds_vars ds) R1) with (next := next') as (ws & Ew & HF).
  { intros v k i a Hv Hk Ha. destruct (Hkey k Hk) as [K1 K2]. rewrite <- (Hex v k i a Hv K1 K2 Ha). apply which_axis_spec. }
  { intros a Ha. now apply Hg. }
  unfold ds_map. rewrite Ew. cbn [bind]. clear Ew.
  assert (axes_of ws = map g (axes_of (ds_vars ds))) as Eax. { apply axes_of_map. clear -HF. induction HF as [|v w vs ws (_ & H & _) _ IH]; constructor; [exact H|exact IH]. }
  assert (map v_name ws = map v_name (ds_vars ds)) as En. { clear -HF. induction HF as [|v w vs ws (H & _) _ IH]; [reflexivity|]. cbn. now rewrite IH, H. }
  assert (forall a, In a (axes_of (ds_vars ds)) -> (g a = a) \/ (exists k, In (k, g a) r)) as Hor.
  { intros a _. unfold g, put_in. destruct (entry (a_name a) r) eqn:Er; [right; exists (a_name a); now apply entry_in|now left]. }
  assert (forall a, In a (axes_of (ds_vars ds)) -> In (g a) (axes_of (ds_vars ds) ++ given dimtypes) \/ (next <= a_id (g a) < next' /\ exists k, In (k, g a) r)) as Hid.
  { intros a Ha. destruct (Hor a Ha) as [->|[k Hk]]; [left; apply in_app_iff; now left|]. destruct (R4 k _ Hk) as [G|G]; [left; apply in_app_iff; now right|right; split; [exact G|now exists k]]. }
  assert (forall a b, In a (axes_of ws) -> In b (axes_of ws) -> a_id a = a_id b -> a = b) as Huniq.
  { intros x y Hx Hy Eid. rewrite Eax in Hx, Hy. apply in_map_iff in Hx as (a & <- & Ha), Hy as (b & <- & Hb).
    destruct (Hid a Ha) as [Ia|[Ia [k Ka]]], (Hid b Hb) as [Ib|[Ib [l Kb]]]; [now apply Ho1|pose proof (Ho2 _ Ia); lia|pose proof (Ho2 _ Ib); lia|]. eapply R5; [exact Ka|exact Kb|exact Eid|lia]. }
  assert (well_named ws) as Hw.
  { split; [now rewrite En|]. split; [now rewrite En|]. intros x y Hx Hy Exy. rewrite Eax in Hx, Hy. apply in_map_iff in Hx as (a & <- & Ha), Hy as (b & <- & Hb).
    f_equal. exact (Hdiff a b (g a) (g b) Ha Hb (proj1 (Hg a Ha)) (proj1 (Hg b Hb)) Exy). }
  destruct (well_named_objects ws next' Hw) with (env := env) (junk := junk) (enc := enc) as (ds' & Eds & Ev).
  { split; [exact Huniq|]. intros x Hx. rewrite Eax in Hx. apply in_map_iff in Hx as (a & <- & Ha). destruct (Hid a Ha) as [Ia|[Ia _]]; [pose proof (Ho2 _ Ia); lia|lia]. }
  { exact Henv. }
  exists ds', g. split; [exact Eds|]. rewrite Ev. split; [exact Hw|]. split; [exact Huniq|]. split; [exact Hg|exact HF].
Qed.
Print Assumptions C72_dimtypes.

(** the new name of an axis: by the name and the content it has when the names are changed *)
Definition final_name (nm : string -> axis -> option string) (b : axobj) : string := match nm (a_name b) (a_axis b) with Some n => n | None => a_name b end.
(** open(file, dimtypes, varlist, namemap): all three together.  The axes are replaced first, then the variables are picked by their names in the
    file, then variables and axes are renamed (the axes by their names after the replacement).
    [nm]: the new names of the axes, the same for all variables that have the axis *)
Theorem C72_open : forall V N env (junk : list Z -> V) enc next ds dimtypes varlist namemap nm, env_ok env ->
  objects (axes_of (ds_vars ds) ++ given dimtypes) next -> well_named (ds_vars ds) -> axes_listed ds -> exact_keys N dimtypes (ds_vars ds) ->
  Forall (fits dimtypes) (axes_of (ds_vars ds)) -> NoDup varlist ->
  (forall v mid i b t, In v (ds_vars ds) -> Forall2 (retyped dimtypes) (v_axes v) mid -> nth_error mid i = Some b ->
     renaming N (map a_axis mid) namemap i t -> t = nm (a_name b) (a_axis b)) ->
  (forall a a' b b', In a (axes_of (ds_vars ds)) -> In a' (axes_of (ds_vars ds)) -> retyped dimtypes a b -> retyped dimtypes a' b' ->
     a_name b = a_name b' \/ final_name nm b = final_name nm b' -> a = a') ->
  (forall a b, In a (axes_of (ds_vars ds)) -> retyped dimtypes a b -> nm (a_name b) (a_axis b) <> None -> self_equal (a_axis b)) ->
  (forall v w, In v (ds_vars ds) -> In w (ds_vars ds) -> after namemap (v_name v) = after namemap (v_name w) -> v_name v = v_name w) ->
  (forall v, In v (ds_vars ds) -> after namemap (v_name v) <> ""%string) ->
  exists ds' kept g, finalize_open N env junk enc next ds dimtypes varlist namemap = Some ds' /\ well_named (ds_vars ds') /\
    (varlist = [] -> kept = ds_vars ds) /\
    (varlist <> [] -> incl kept (ds_vars ds) /\ map v_name kept = filter (fun n => existsb (String.eqb n) (map v_name (ds_vars ds))) varlist) /\
    (forall a, In a (axes_of (ds_vars ds)) -> retyped dimtypes a (g a)) /\
    Forall2 (fun v w => v_name w = after namemap (v_name v) /\
      Forall2 (fun a b => a_name b = final_name nm (g a) /\
        a_axis b = match nm (a_name (g a)) (a_axis (g a)) with Some n => rename_axis enc n (a_axis (g a)) | None => a_axis (g a) end) (v_axes v) (v_axes w) /\
      forall D, separate (map (fun a => a_axis (g a)) (v_axes v)) -> separate (map a_axis (v_axes w)) -> responds env (var_of v) D -> responds env (var_of w) D) kept (ds_vars ds').
Proof.
  intros V N env junk enc next ds dimtypes varlist namemap nm Henv Hob Hw Hlist Hex Hfit Hnd Hnm Hinj Hself Hvn Hve. unfold finalize_open.
  set (R1 := fun (g : axobj -> axobj) (v w : vobj V) => v_name w = v_name v /\ v_axes w = map g (v_axes v) /\
      forall D, separate (map (fun a => a_axis (g a)) (v_axes v)) -> responds env (var_of v) D -> responds env (var_of w) D).
  (* axis types *)
  assert (exists ds1 g, match dimtypes with [] => Some ds | _ => set_axistypes N env junk enc next ds dimtypes end = Some ds1 /\ well_named (ds_vars ds1) /\
    (forall a b, In a (axes_of (ds_vars ds1)) -> In b (axes_of (ds_vars ds1)) -> a_id a = a_id b -> a = b) /\
    (forall a, In a (axes_of (ds_vars ds)) -> retyped dimtypes a (g a)) /\ Forall2 (R1 g) (ds_vars ds) (ds_vars ds1)) as (ds1 & g & E1 & W1 & U1 & G1 & F1).
  { assert (forall P : Prop, (dimtypes = [] -> P) -> (dimtypes <> [] -> P) -> P) as Hcase by (intros P A B; destruct dimtypes; [now apply A|apply B; discriminate]). apply Hcase; clear Hcase.
    - intros ->. exists ds, (fun a => a). split; [reflexivity|]. split; [exact Hw|]. split; [intros a b Ha Hb; apply (proj1 Hob); apply in_app_iff; now left|]. split; [intros a _; reflexivity|].
      clear. induction (ds_vars ds) as [|v l IH]; [constructor|]. constructor; [|exact IH]. split; [reflexivity|]. split; [now rewrite map_id|auto].
    - intros Hne. destruct (C72_dimtypes V N env junk enc next ds dimtypes Henv Hob Hw Hlist Hex Hfit) as (ds1 & g & E & W & U & G & F).
      { intros a a' b b' Ha Ha' Hb Hb' En. exact (Hinj a a' b b' Ha Ha' Hb Hb' (or_introl En)). }
      exists ds1, g. split; [destruct dimtypes; [congruence|exact E]|]. split; [exact W|]. split; [exact U|]. split; [intros a Ha; exact (proj1 (G a Ha))|].
      clear -F. induction F as [|v w vs ws (H1 & H2 & H3) _ IH]; constructor; [|exact IH]. split; [exact H1|]. split; [exact H2|]. intros D Hs. apply H3. rewrite H2, map_map. exact Hs. }
  rewrite E1. cbn [bind]. clear E1.
  assert (map v_name (ds_vars ds1) = map v_name (ds_vars ds)) as En1. { clear -F1. induction F1 as [|v w vs ws (H & _) _ IH]; [reflexivity|]. cbn. now rewrite IH, H. }
  (* the variables kept *)
  assert (exists ds2 kept, match varlist with [] => Some ds1 | _ => whitelist env junk enc (unused ds1) ds1 varlist end = Some ds2 /\ incl (ds_vars ds2) (ds_vars ds1) /\ NoDup (map v_name (ds_vars ds2)) /\
     (varlist = [] -> kept = ds_vars ds) /\ (varlist <> [] -> map v_name kept = filter (fun n => existsb (String.eqb n) (map v_name (ds_vars ds))) varlist) /\
     incl kept (ds_vars ds) /\ Forall2 (R1 g) kept (ds_vars ds2)) as (ds2 & kept & E2 & I2 & N2 & K1 & K2 & K3 & F2).
  { assert (forall P : Prop, (varlist = [] -> P) -> (varlist <> [] -> P) -> P) as Hcase by (intros P A B; destruct varlist; [now apply A|apply B; discriminate]). apply Hcase; clear Hcase.
    - intros ->. exists ds1, (ds_vars ds). split; [reflexivity|]. split; [intros v; auto|]. split; [exact (proj1 W1)|]. split; [reflexivity|]. split; [congruence|]. split; [intros v; auto|exact F1].
    - intros Hne. destruct (C70_whitelist V env junk enc (unused ds1) ds1 varlist Henv) as (ds2 & E & I & Nm); [split; [exact U1|apply unused_above]|exact W1|exact Hnd|].
      assert (exists kept, incl kept (ds_vars ds) /\ Forall2 (R1 g) kept (ds_vars ds2)) as (kept & Ik & Fk).
      { clear -I F1. induction (ds_vars ds2) as [|w l IH]; [exists []; split; [intros v []|constructor]|]. destruct IH as (k & Ik & Fk); [intros x Hx; apply I; now right|].
        destruct (ViewProofs.Forall2_In_r _ _ _ w F1 (I w (or_introl eq_refl))) as (v & Hv & Rv). exists (v :: k). split; [intros x [<-|Hx]; auto|now constructor]. }
      exists ds2, kept. split; [destruct varlist; [congruence|exact E]|]. split; [exact I|]. split; [rewrite Nm; now apply NoDup_filter|]. split; [congruence|]. split; [|split; [exact Ik|exact Fk]].
      intros _. rewrite <- En1, <- Nm. clear -Fk. induction Fk as [|v w vs ws (H & _) _ IH]; [reflexivity|]. cbn. now rewrite IH, H. }
  rewrite E2. cbn [bind]. clear E2.
  assert (incl (axes_of (ds_vars ds2)) (axes_of (ds_vars ds1))) as A2. { intros a Ha. apply in_flat_map in Ha as (v & Hv & Ha). eapply in_axes_of; [apply I2; exact Hv|exact Ha]. }
  assert (forall b, In b (axes_of (ds_vars ds1)) -> exists a, In a (axes_of (ds_vars ds)) /\ b = g a) as B1.
  { intros b Hb. rewrite (axes_of_map g (ds_vars ds) (ds_vars ds1)) in Hb; [apply in_map_iff in Hb as (a & <- & Ha); now exists a|]. clear -F1. induction F1 as [|v w vs ws (_ & H & _) _ IH]; constructor; [exact H|exact IH]. }
  assert (well_named (ds_vars ds2)) as W2.
  { split; [exact N2|]. split; [intros K; apply (proj1 (proj2 W1)); apply in_map_iff in K as (v & Ev & Hv); apply in_map_iff; exists v; split; [exact Ev|now apply I2]|]. intros a b Ha Hb. apply (proj2 (proj2 W1)); auto. }
  assert (objects (axes_of (ds_vars ds2)) (unused ds2)) as O2 by (split; [intros a b Ha Hb; apply U1; auto|apply unused_above]).
  assert (map v_name (ds_vars ds2) = map v_name kept) as En2. { clear -F2. induction F2 as [|v w vs ws (H & _) _ IH]; [reflexivity|]. cbn. now rewrite IH, H. }
  assert (forall v i b t, In v kept -> nth_error (map g (v_axes v)) i = Some b -> renaming N (map a_axis (map g (v_axes v))) namemap i t -> t = nm (a_name b) (a_axis b)) as Hnm'.
  { intros v i b t Hv Hi Ht. apply (Hnm v (map g (v_axes v)) i b t); [now apply K3| |exact Hi|exact Ht]. apply K3 in Hv. assert (forall a, In a (v_axes v) -> retyped dimtypes a (g a)) as G by (intros a Ha; apply G1; eapply in_axes_of; eassumption).
    clear -G. induction (v_axes v) as [|a l IH]; constructor; [apply G; now left|apply IH; intros; apply G; now right]. }
  assert (forall P : Prop, (namemap = [] -> P) -> (namemap <> [] -> P) -> P) as Hcase by (intros P A B; destruct namemap; [now apply A|apply B; discriminate]). apply Hcase; clear Hcase.
  - intros ->. exists ds2, kept, g. split; [reflexivity|]. split; [exact W2|]. split; [exact K1|]. split; [intros H; split; [exact K3|now apply K2]|]. split; [exact G1|].
    assert (forall v a, In v kept -> In a (v_axes v) -> nm (a_name (g a)) (a_axis (g a)) = None) as Hno.
    { intros v a Hv Ha. apply In_nth_error in Ha as [i Hi]. symmetry. apply (Hnm' v i (g a) None Hv); [now rewrite nth_error_map, Hi|]. intros m []. }
    clear -F2 Hno.
    assert (forall v w, In v kept -> R1 g v w -> v_name w = after [] (v_name v) /\ Forall2 (fun a b => a_name b = final_name nm (g a) /\
        a_axis b = match nm (a_name (g a)) (a_axis (g a)) with Some n => rename_axis enc n (a_axis (g a)) | None => a_axis (g a) end) (v_axes v) (v_axes w) /\
      forall D, separate (map (fun a => a_axis (g a)) (v_axes v)) -> separate (map a_axis (v_axes w)) -> responds env (var_of v) D -> responds env (var_of w) D) as K.
    { intros v w Hv (H1 & H2 & H3). split; [exact H1|]. split; [|intros D Hs _; now apply H3]. rewrite H2. specialize (Hno v). clear -Hno Hv. assert (forall a, In a (v_axes v) -> nm (a_name (g a)) (a_axis (g a)) = None) as H by auto. clear Hno Hv.
      induction (v_axes v) as [|a l IH]; [constructor|]. cbn [map]. constructor; [|apply IH; intros; apply H; now right]. unfold final_name. rewrite (H a (or_introl eq_refl)). split; reflexivity. }
    clear Hno. induction F2 as [|v w vs ws HR _ IH]; constructor; [apply K; [now left|exact HR]|]. apply IH. intros x y Hx. apply K. now right.
  - intros Hne. assert (forall A (x y : A), match namemap with [] => x | _ :: _ => y end = y) as Hm by (intros; destruct namemap; congruence). rewrite Hm. clear Hm.
    destruct (C70_rename_vars V env junk enc (unused ds2) ds2 namemap Henv O2 W2) as (ds3 & E3 & W3 & F3).
    { rewrite <- map_map with (f := v_name) (g := after namemap), En2. assert (NoDup (map v_name kept)) as Hk by (rewrite <- En2; exact N2). clear -Hk K3 Hvn.
      induction kept as [|v l IH]; [constructor|]. cbn [map] in *. inversion Hk as [|? ? H1 H2]; subst. constructor; [|apply IH; [intros x Hx; apply K3; now right|exact H2]].
      intros K. apply in_map_iff in K as (n & En & Hn). apply in_map_iff in Hn as (w & <- & Hw). apply H1. apply in_map_iff. exists w. split; [|exact Hw]. apply Hvn; [apply K3; now right|apply K3; now left|exact En]. }
    { rewrite <- map_map with (f := v_name) (g := after namemap), En2. intros K. apply in_map_iff in K as (n & En & Hn). apply in_map_iff in Hn as (w & <- & Hww). apply (Hve w); [now apply K3|exact En]. }
    rewrite E3. cbn [bind]. clear E3.
    assert (axes_of (ds_vars ds3) = axes_of (ds_vars ds2)) as A3. { clear -F3. unfold axes_of. induction F3 as [|v w vs ws (_ & H & _) _ IH]; [reflexivity|]. cbn [flat_map]. now rewrite IH, H. }
    destruct (C70_rename_axes V N env junk enc (unused ds3) ds3 namemap (fun b => nm (a_name b) (a_axis b)) Henv) as (ds4 & E4 & W4 & F4).
    + split; [intros a b Ha Hb; rewrite A3 in Ha, Hb; now apply O2|apply unused_above].
    + exact W3.
    + intros u i b t Hu Hi Ht. destruct (ViewProofs.Forall2_In_r _ _ _ u F3 Hu) as (w & Hw2 & _ & Ea & _). destruct (ViewProofs.Forall2_In_r _ _ _ w F2 Hw2) as (v & Hv & _ & Eb & _). rewrite Ea, Eb in *. exact (Hnm' v i b t Hv Hi Ht).
    + intros a b Ha Hb En. rewrite A3 in Ha, Hb. destruct (B1 a (A2 a Ha)) as (a0 & Ia & ->). destruct (B1 b (A2 b Hb)) as (b0 & Ib & ->). f_equal. apply (Hinj a0 b0 (g a0) (g b0) Ia Ib (G1 a0 Ia) (G1 b0 Ib)). right. exact En.
    + intros a Ha Hn. rewrite A3 in Ha. destruct (B1 a (A2 a Ha)) as (a0 & Ia & ->). exact (Hself a0 (g a0) Ia (G1 a0 Ia) Hn).
    + exists ds4, kept, g. split; [exact E4|]. split; [exact W4|]. split; [exact K1|]. split; [intros H; split; [exact K3|now apply K2]|]. split; [exact G1|].
      apply Forall2_intro_nth; [rewrite (ArrProofs.Forall2_len _ _ _ F2), (ArrProofs.Forall2_len _ _ _ F3); exact (ArrProofs.Forall2_len _ _ _ F4)|]. intros i v z Hv Hz.
      destruct (nth_error (ds_vars ds2) i) as [w|] eqn:Ew.
      2:{ exfalso. apply nth_error_None in Ew. assert (nth_error kept i <> None) as K by congruence. apply nth_error_Some in K. pose proof (ArrProofs.Forall2_len _ _ _ F2). lia. }
      destruct (nth_error (ds_vars ds3) i) as [u|] eqn:Eu.
      2:{ exfalso. apply nth_error_None in Eu. assert (nth_error kept i <> None) as K by congruence. apply nth_error_Some in K. pose proof (ArrProofs.Forall2_len _ _ _ F2). pose proof (ArrProofs.Forall2_len _ _ _ F3). lia. }
      destruct (Forall2_nth_error _ _ _ _ _ _ F2 Hv Ew) as (P1 & P2 & P3). destruct (Forall2_nth_error _ _ _ _ _ _ F3 Ew Eu) as (Q1 & Q2 & Q3). destruct (Forall2_nth_error _ _ _ _ _ _ F4 Eu Hz) as (S1 & S2 & S3).
      split; [congruence|]. split; [|intros D Hs Hs' HD; apply S3; [exact Hs'|]; apply Q3; now apply P3].
      rewrite Q2, P2 in S2. clear -S2. revert S2. generalize (v_axes z). induction (v_axes v) as [|a l IH]; intros zs S2; inversion S2 as [|? ? ? ? H1 H2]; subst; constructor; [exact H1|now apply IH].
Qed.
Print Assumptions C72_open.

(** keep_old_name=True, the default of replace_axes, is documented to keep the name of the old axis: not if an axis object is given *)
Theorem C72_keep_name_refuted : exists (v w : vobj Z) (b : axobj),
  replace_obj names env0 (fun _ => 0) [("lat"%string, b)] 1000 v = Some (Some w, 1000) /\ map a_name (v_axes v) = ["lat"; "lon"]%string /\ map a_name (v_axes w) = ["y"; "lon"]%string.
Proof.
  exists (MkVar "t" [lat_obj; lon_obj] (var_source blocks)). eexists. exists (MkAx 7 "y" lat2). vm_compute. repeat split; reflexivity.
Qed.
Print Assumptions C72_keep_name_refuted.

(** *** the hypotheses are met: lat is replaced by a given axis, lon by one made from it; u and t are kept, in this order; t and lon are renamed *)
Definition new_lat : axobj := MkAx 7 "lat" (Coord (MkCoord Plain [1] 7 [1; 2]%Q [] [] (1 # 100000))).
Definition shifted (a : axobj) : option (string * axis) :=
  match a_axis a with Coord c => Some ("lon"%string, Coord (MkCoord Plain [2] 8 (map (Qplus 100) (c_vals c)) [] [] (1 # 100000))) | _ => None end.
Definition two_types : list (string * dimtype) := [("lon"%string, Built shifted); ("time"%string, Given new_lat); ("lat"%string, Given new_lat)].
Definition final_map : list (string * string) := [("t", "temp"); ("lon", "x")]%string.
Definition final_nm (n : string) (a : axis) : option string := if String.eqb n "lon" then Some "x"%string else None.
Lemma two_axes_in a : In a (axes_of two_vars) -> a = lat_obj \/ a = lon_obj.
Proof. intros Ha. cbn in Ha. intuition congruence. Qed.
Lemma two_retyped a b : In a (axes_of two_vars) -> retyped two_types a b ->
  (a = lat_obj /\ b = new_lat) \/ (a = lon_obj /\ a_name b = "lon"%string /\ a_axis b = Coord (MkCoord Plain [2] 8 [100 + 0; 100 + 5; 100 + 7]%Q [] [] (1 # 100000))).
Proof.
  intros Ha H. apply two_axes_in in Ha as [-> | ->]; [left; split; [reflexivity|exact H]|right]. split; [reflexivity|]. unfold retyped in H. cbn in H. injection H as H1 H2. rewrite <- H1, <- H2. split; reflexivity.
Qed.
Example C72_example :
  objects (axes_of two_vars ++ given two_types) 1000 /\ well_named two_vars /\ axes_listed two_ds /\ exact_keys names two_types two_vars /\ Forall (fits two_types) (axes_of two_vars) /\
  (forall v mid i b t, In v two_vars -> Forall2 (retyped two_types) (v_axes v) mid -> nth_error mid i = Some b -> renaming names (map a_axis mid) final_map i t -> t = final_nm (a_name b) (a_axis b)) /\
  (forall a a' b b', In a (axes_of two_vars) -> In a' (axes_of two_vars) -> retyped two_types a b -> retyped two_types a' b' -> a_name b = a_name b' \/ final_name final_nm b = final_name final_nm b' -> a = a') /\
  (forall a b, In a (axes_of two_vars) -> retyped two_types a b -> final_nm (a_name b) (a_axis b) <> None -> self_equal (a_axis b)) /\
  seen (finalize_open names env0 (fun _ => 0) enc0 1000 two_ds two_types ["u"; "w"; "t"]%string final_map) =
    Some [("u", ["x"], [1001], [[100; 105; 107]]%Q, Some ([3], 100)); ("temp", ["lat"; "x"], [7; 1001], [[1; 2]; [100; 105; 107]]%Q, Some ([2; 3], 0))]%string.
Proof.
  split; [|split; [|split; [|split; [|split; [|split; [|split; [|split]]]]]]].
  - split; [intros a b Ha Hb E; cbn in Ha, Hb; intuition (subst; try reflexivity; discriminate)|intros a Ha; cbn in Ha; intuition (subst; reflexivity)].
  - exact (proj1 (proj2 C70_example)).
  - split; [repeat constructor; cbn; intuition discriminate|]. intros a. cbn. intuition.
  - intros v k i a Hv Hk _ Ha. rewrite <- which_axis_spec. cbn in Hk.
    destruct Hv as [<-|[<-|[]]]; (destruct i as [|[|i]]; cbn in Ha; [injection Ha as <-|try discriminate; injection Ha as <-|destruct i; discriminate]); destruct Hk as [<-|[<-|[<-|[]]]]; cbn; split; congruence.
  - apply Forall_forall. intros a Ha. apply two_axes_in in Ha as [-> | ->]; [exists new_lat; split; reflexivity|].
    exists (MkAx 9 "lon" (Coord (MkCoord Plain [2] 8 [100 + 0; 100 + 5; 100 + 7]%Q [] [] (1 # 100000)))). split; reflexivity.
  - intros v mid i b t Hv Hmid Hi Ht.
    assert (t = new_name names (map a_axis mid) final_map i) as ->.
    { apply (renaming_unique names (map a_axis mid) final_map i); [exact Ht|]. pose proof (new_name_spec names (map a_axis mid) final_map i) as S1. unfold renaming. destruct (new_name names _ final_map i) as [m2|].
      - destruct S1 as (pre & n1 & post & E1 & E2 & E3). exists pre, n1, post. split; [exact E1|]. split; [now apply which_axis_spec|]. intros [m1 k] Hm F. apply (E3 m1 k Hm). now apply which_axis_spec.
      - intros [m1 k] Hm F. apply (S1 m1 k Hm). now apply which_axis_spec. }
    assert (exists l, (mid = [new_lat; l] \/ mid = [l]) /\ retyped two_types lon_obj l) as (l & Hl & Rl).
    { destruct Hv as [<-|[<-|[]]]; cbn [v_axes] in Hmid.
      - inversion Hmid as [|? x ? m H1 H2]; subst. inversion H2 as [|? y ? m' H3 H4]; subst. inversion H4; subst. exists y. split; [left; f_equal; exact H1|exact H3].
      - inversion Hmid as [|? x ? m H1 H2]; subst. inversion H2; subst. exists x. split; [now right|exact H1]. }
    destruct (two_retyped lon_obj l) as [[K _]|(_ & Nl & Al)]; [cbn; tauto|exact Rl|discriminate|].
    destruct Hl as [-> | ->]; cbn [map]; rewrite Al; (destruct i as [|[|i]]; cbn in Hi; [injection Hi as <-|try discriminate; injection Hi as <-|destruct i; discriminate]); rewrite ?Nl; vm_compute; reflexivity.
  - intros a a' b b' Ha Ha' Hb Hb' E. apply (two_retyped a b Ha) in Hb. apply (two_retyped a' b' Ha') in Hb'. unfold final_name, final_nm in E.
    destruct Hb as [[-> ->]|(-> & N1 & _)], Hb' as [[-> ->]|(-> & N2 & _)]; try reflexivity; exfalso; [rewrite N2 in E|rewrite N1 in E]; cbn in E; destruct E; discriminate.
  - intros a b Ha Hb _. destruct (two_retyped a b Ha Hb) as [[_ ->]|(_ & _ & ->)]; discriminate.
  - vm_compute. reflexivity.
Qed.

(** an axis of another length than the one it is to replace is refused, and so is a function or class that fails *)
Theorem C72_refused : forall V N env (junk : list Z -> V) enc next ds dimtypes a d, In a (ds_axes ds) -> entry (a_name a) dimtypes = Some d ->
  (match d with
   | Given b => axis_len (a_axis b) <> axis_len (a_axis a)
   | Built f => forall n x, f a = Some (n, x) -> axis_len x <> axis_len (a_axis a)
   end) -> set_axistypes N env junk enc next ds dimtypes = None.
Proof.
  intros V N env junk enc next ds dimtypes a d Hin Hd Hlen. unfold set_axistypes.
  replace (replacements dimtypes next (ds_axes ds)) with (@None (list (string * axobj) * Z)); [reflexivity|]. symmetry.
  revert next. induction (ds_axes ds) as [|c l IH]; intros next; [destruct Hin|]. cbn [replacements]. destruct Hin as [->|Hin].
  - rewrite Hd. destruct d as [b|f]; cbn [bind].
    + destruct (Z.eqb_spec (axis_len (a_axis b)) (axis_len (a_axis a))); [congruence|reflexivity].
    + destruct (f a) as [[n x]|] eqn:E; [|reflexivity]. cbn [option_map bind a_axis]. destruct (Z.eqb_spec (axis_len x) (axis_len (a_axis a))); [exfalso; eapply Hlen; eauto|reflexivity].
  - destruct (entry (a_name c) dimtypes) as [dt|]; [|now apply IH]. destruct (match dt with Given b => Some (b, next) | Built f => option_map (fun '(n, x) => (MkAx next n x, next + 1)) (f c) end) as [[b next1]|]; [|reflexivity]. cbn [bind].
    destruct (axis_len (a_axis b) =? axis_len (a_axis c)); [|reflexivity]. now rewrite (IH Hin).
Qed.
Print Assumptions C72_refused.
Example C72_refused_example : set_axistypes names env0 (fun _ => 0) enc0 1000 two_ds [("lon"%string, Given new_lat)] = None.
Proof.
  apply (C72_refused Z names env0 (fun _ => 0) enc0 1000 two_ds [("lon"%string, Given new_lat)] lon_obj (Given new_lat)); [right; now left|reflexivity|discriminate].
Qed.
