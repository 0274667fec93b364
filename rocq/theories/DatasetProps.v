(** C44: datasets: names of variables and axes, sharing of axes, lookup.  [next] and [enc] (identities of new objects, the number by which a
    name is represented inside an axis) are parameters of the model. *)
From Coq Require Import ZArith List Bool String Lia QArith_base.
From Verif Require Import IndexModel IndexSpec ArrModel ViewModel ViewSpec AxisModel AxisSpec VarOpsModel VarOpsSpec EnvExample ReduceModel ReduceSpec
  DatasetModel DatasetSpec DatasetNames DatasetAxes DatasetVars DatasetProofs ViewProps.
From Verif Require ViewProofs ArrProofs.
Import ListNotations.
Open Scope Z_scope.
Open Scope list_scope.
Notation length := List.length.

Lemma few_axes_families next P n : objects P next -> few_axes P -> (length (families_of (named n P)) < 100)%nat.
Proof.
  intros Hob H. apply (few_families next P (proj1 Hob) (proj2 Hob)). intros hs Hin Hp. apply H; [intros h Hh; apply Hin, In_named in Hh; tauto|].
  intros i j h h' Hij Hi Hj. destruct (Hp i j h h' Hij Hi Hj) as [H1 H2]. split; [|intros [E|E]; congruence].
  pose proof (Hin h (nth_error_In _ _ Hi)) as [_ E1]%In_named. pose proof (Hin h' (nth_error_In _ _ Hj)) as [_ E2]%In_named. congruence.
Qed.
Lemma in_axes_of {V} (vars : list (vobj V)) v a : In v vars -> In a (v_axes v) -> In a (axes_of vars).
Proof. intros Hv Ha. apply in_flat_map. now exists v. Qed.
Lemma back {V} enc next (vars ws : list (vobj V)) Q P : Forall2 (fun v w => Forall2 (new_of enc next P) (v_axes v) (v_axes w) /\ Q v w) vars ws ->
  forall b, In b (axes_of ws) -> exists a, In a (axes_of vars) /\ new_of enc next P a b.
Proof.
  induction 1 as [|v w A B [H _] _ IH]; intros b Hb; [destruct Hb|]. cbn [axes_of flat_map] in *. apply in_app_iff in Hb as [Hb|Hb].
  - destruct (ViewProofs.Forall2_In_r _ _ _ b H Hb) as (a & Ha & Hab). exists a. split; [apply in_app_iff; now left|exact Hab].
  - destruct (IH b Hb) as (a & Ha & Hab). exists a. split; [apply in_app_iff; now right|exact Hab].
Qed.

(** Dataset(vars) always succeeds; the variables are kept in order with their data (on axes that stand for their own), those with a name of
    their own keep it. *)
Theorem C44_contents : forall V env (junk : list Z -> V) enc next vars, env_ok env -> objects (axes_of vars) next ->
  exists ds, make_dataset env junk enc next vars = Some ds /\ length (ds_vars ds) = length vars /\
    forall i v, nth_error vars i = Some v -> exists w, nth_error (ds_vars ds) i = Some w /\
      Forall2 (stands_for enc (axes_of vars)) (v_axes v) (v_axes w) /\
      (v_name v <> ""%string -> occurrences (v_name v) (map (fun v => default_name (v_name v)) vars) = 1%nat -> v_name w = v_name v) /\
      (forall D, separate (map a_axis (v_axes w)) ->
         (getable env (var_of v) D -> getable env (var_of w) D) /\ (responds env (var_of v) D -> responds env (var_of w) D)).
Proof.
  intros V env junk enc next vars Henv Hob. destruct (make_spec env Henv junk enc next vars Hob) as (ds & Hds & HF & Hn & Ha & _). exists ds. split; [exact Hds|].
  split; [symmetry; exact (ArrProofs.Forall2_len _ _ _ HF)|]. intros i v Hi. destruct (nth_error (ds_vars ds) i) as [w|] eqn:Ew.
  2:{ exfalso. apply nth_error_None in Ew. pose proof (proj1 (nth_error_Some vars i) ltac:(congruence)). pose proof (ArrProofs.Forall2_len _ _ _ HF). lia. }
  exists w. split; [reflexivity|]. destruct (ViewProofs.Forall2_nth_error _ _ _ i v w HF Hi Ew) as [G1 G2]. split; [|split; [|exact G2]].
  - assert (incl (v_axes v) (axes_of vars)) as Hincl by (intros a Ha'; eapply in_axes_of; [eapply nth_error_In, Hi|exact Ha']). clear -G1 Hincl Hob.
    induction G1 as [|a b A B Hab _ IH]; constructor; [apply (new_stands enc next _ Hob); [apply Hincl; now left|exact Hab]|apply IH; intros x Hx; apply Hincl; now right].
  - intros Hne Hone. assert (nth_error (names (map v_name vars)) i = Some (v_name v)) as K.
    { apply names_kept; [now rewrite nth_error_map, Hi|exact Hne|]. now rewrite map_map. }
    rewrite <- Hn, nth_error_map, Ew in K. now injection K.
Qed.
Print Assumptions C44_contents.

(** No two variables of a dataset have the same name, and none is without a name (fewer than 100 variables per name given) *)
Theorem C44_names : forall V env (junk : list Z -> V) enc next vars ds, env_ok env -> objects (axes_of vars) next ->
  few_names (map (fun v => default_name (v_name v)) vars) -> make_dataset env junk enc next vars = Some ds ->
  NoDup (map v_name (ds_vars ds)) /\ ~ In ""%string (map v_name (ds_vars ds)).
Proof.
  intros V env junk enc next vars ds Henv Hob Hf Hds. destruct (make_spec env Henv junk enc next vars Hob) as (ds' & Hds' & HF & Hn & Ha & _). rewrite Hds in Hds'. injection Hds' as <-.
  rewrite Hn. split; [apply names_unique; now rewrite map_map|]. intros Hin. apply In_nth_error in Hin as (i & Hi).
  destruct (nth_error (map v_name vars) i) as [n|] eqn:E.
  - rewrite (names_at _ _ _ E) in Hi. cbv zeta in Hi. assert (forall m, default_name m <> ""%string) as Hd.
    { intros m. unfold default_name. destruct (String.eqb_spec m ""); [discriminate|assumption]. }
    destruct (Nat.eqb _ 1) eqn:E1.
    + apply (Hd n). congruence.
    + match type of Hi with Some (fresh ?a ?b ?c) = _ => destruct (fresh_form a b c) as (k & Ef); rewrite Ef in Hi end.
      specialize (Hd n). destruct (default_name n); [congruence|discriminate Hi].
  - apply nth_error_None in E. assert (nth_error (names (map v_name vars)) i = None) as N by (apply nth_error_None; now rewrite names_length). congruence.
Qed.
Print Assumptions C44_names.

(** The axes of a dataset are those of its variables, each once, and two of them with the same name are one and the same *)
Theorem C44_axes : forall V env (junk : list Z -> V) enc next vars ds, env_ok env -> objects (axes_of vars) next -> few_axes (axes_of vars) ->
  make_dataset env junk enc next vars = Some ds ->
  NoDup (map a_name (ds_axes ds)) /\ (forall b, In b (ds_axes ds) <-> In b (axes_of (ds_vars ds))) /\
  (forall b b', In b (ds_axes ds) -> In b' (ds_axes ds) -> a_name b = a_name b' \/ a_id b = a_id b' -> b = b').
Proof.
  intros V env junk enc next vars ds Henv Hob Hf Hds. destruct (make_spec env Henv junk enc next vars Hob) as (ds' & Hds' & HF & Hn & Ha & _). rewrite Hds in Hds'. injection Hds' as <-.
  pose proof (back enc next _ _ _ _ HF) as Hback.
  assert (forall b b', In b (axes_of (ds_vars ds)) -> In b' (axes_of (ds_vars ds)) -> a_id b = a_id b' -> b = b') as Hid.
  { intros b b' Hb Hb' E. destruct (Hback b Hb) as (a & Ha1 & Ha2). destruct (Hback b' Hb') as (a' & Ha1' & Ha2').
    exact (new_id_inj enc next _ (proj1 Hob) (proj2 Hob) a a' b b' Ha1 Ha1' Ha2 Ha2' E). }
  assert (forall b b', In b (axes_of (ds_vars ds)) -> In b' (axes_of (ds_vars ds)) -> a_name b = a_name b' -> b = b') as Hnm.
  { intros b b' Hb Hb' E. destruct (Hback b Hb) as (a & Ha1 & Ha2). destruct (Hback b' Hb') as (a' & Ha1' & Ha2').
    exact (new_name_inj enc next _ (proj1 Hob) (proj2 Hob) a a' b b' (fun n => few_axes_families next _ n Hob Hf) Ha1 Ha1' Ha2 Ha2' E). }
  assert (forall b, In b (ds_axes ds) <-> In b (axes_of (ds_vars ds))) as Hiff.
  { intros b. rewrite Ha. split; [intros H; now apply collect_In in H|]. intros Hb. destruct (collect_all [] _ b Hb (fun H => H)) as (c & Hc & E).
    pose proof (proj1 (collect_In [] _ c Hc)) as Hc'. now rewrite <- (Hid c b Hc' Hb E). }
  split; [|split; [exact Hiff|]].
  - rewrite Ha in *. pose proof (collect_NoDup [] (axes_of (ds_vars ds))) as N. assert (forall b, In b (collect [] (axes_of (ds_vars ds))) -> In b (axes_of (ds_vars ds))) as Hsub by (intros b Hb; now apply Hiff).
    revert N Hsub. generalize (collect [] (axes_of (ds_vars ds))) as L. induction L as [|b L IH]; intros N Hsub; [constructor|]. cbn [map] in *. inversion N as [|? ? N1 N2]; subst. constructor.
    + intros K. apply in_map_iff in K as (c & Ec & Hc). assert (c = b) as -> by (apply Hnm; [apply Hsub; now right|apply Hsub; now left|exact Ec]). apply N1. now apply in_map.
    + apply IH; [exact N2|]. intros c Hc. apply Hsub. now right.
  - intros b b' Hb Hb' [E|E]; [apply Hnm|apply Hid]; auto; now apply Hiff.
Qed.
Print Assumptions C44_axes.

(** Where == is an equality, axes of different variables become one axis of the dataset exactly if they have the same name and are equal *)
Theorem C44_shared : forall V env (junk : list Z -> V) enc next vars ds i j v v' w w' p q a a' b b', env_ok env -> objects (axes_of vars) next -> equality_on (axes_of vars) ->
  make_dataset env junk enc next vars = Some ds ->
  nth_error vars i = Some v -> nth_error (v_axes v) p = Some a -> nth_error (ds_vars ds) i = Some w -> nth_error (v_axes w) p = Some b ->
  nth_error vars j = Some v' -> nth_error (v_axes v') q = Some a' -> nth_error (ds_vars ds) j = Some w' -> nth_error (v_axes w') q = Some b' ->
  (b = b' <-> a_name a = a_name a' /\ axis_eq (a_axis a) (a_axis a') = true).
Proof.
  intros V env junk enc next vars ds i j v v' w w' p q a a' b b' Henv Hob (E1 & E2 & E3) Hds Hi Hp Hw Hb Hj Hq Hw' Hb'.
  destruct (make_spec env Henv junk enc next vars Hob) as (ds' & Hds' & HF & _). rewrite Hds in Hds'. injection Hds' as <-.
  destruct (ViewProofs.Forall2_nth_error _ _ _ i v w HF Hi Hw) as [G _]. destruct (ViewProofs.Forall2_nth_error _ _ _ j v' w' HF Hj Hw') as [G' _].
  apply (new_axis_shared enc next _ (proj1 Hob) (proj2 Hob) a a' b b' E1 E2 E3).
  - eapply in_axes_of; [eapply nth_error_In, Hi|eapply nth_error_In, Hp].
  - eapply in_axes_of; [eapply nth_error_In, Hj|eapply nth_error_In, Hq].
  - exact (ViewProofs.Forall2_nth_error _ _ _ p a b G Hp Hb).
  - exact (ViewProofs.Forall2_nth_error _ _ _ q a' b' G' Hq Hb').
Qed.
Print Assumptions C44_shared.

(** ds[name]: every variable is found under its name, every axis under its name unless a variable has this name too *)
Lemma find_unique {A} (f : A -> string) (l : list A) x : NoDup (map f l) -> In x l -> find (fun y => String.eqb (f y) (f x)) (List.rev l) = Some x.
Proof.
  intros N Hx. destruct (find _ (List.rev l)) as [y|] eqn:E.
  - apply find_some in E as [E1 E2]. apply in_rev in E1. apply String.eqb_eq in E2. f_equal. revert N Hx E1 E2. clear. induction l as [|z l IH]; intros N Hx Hy E; [destruct Hx|]. cbn [map] in N. inversion N as [|? ? N1 N2]; subst.
    destruct Hx as [->|Hx], Hy as [->|Hy]; [reflexivity| | |auto].
    + exfalso. apply N1. rewrite <- E. now apply in_map.
    + exfalso. apply N1. rewrite E. now apply in_map.
  - exfalso. apply in_rev in Hx. apply (find_none _ _ E) in Hx. cbv beta in Hx. rewrite String.eqb_refl in Hx. discriminate.
Qed.
Theorem C44_lookup : forall V env (junk : list Z -> V) enc next vars ds, env_ok env -> objects (axes_of vars) next ->
  few_names (map (fun v => default_name (v_name v)) vars) -> few_axes (axes_of vars) -> make_dataset env junk enc next vars = Some ds ->
  (forall v, In v (ds_vars ds) -> getitem ds (v_name v) = Some (AVar v)) /\
  (forall a, In a (ds_axes ds) -> ~ In (a_name a) (map v_name (ds_vars ds)) -> getitem ds (a_name a) = Some (AnAxis a)) /\
  (forall key, ~ In key (map v_name (ds_vars ds)) -> ~ In key (map a_name (ds_axes ds)) -> getitem ds key = None).
Proof.
  intros V env junk enc next vars ds Henv Hob Hfn Hfa Hds. destruct (C44_names V env junk enc next vars ds Henv Hob Hfn Hds) as [N _].
  destruct (C44_axes V env junk enc next vars ds Henv Hob Hfa Hds) as (NA & _ & _).
  assert (forall key, ~ In key (map v_name (ds_vars ds)) -> find (fun v => String.eqb (v_name v) key) (List.rev (ds_vars ds)) = None) as Hno.
  { intros key Hk. destruct (find _ _) as [v|] eqn:E; [|reflexivity]. exfalso. apply find_some in E as [E1 E2]. apply String.eqb_eq in E2. apply Hk. rewrite <- E2. apply in_map. now apply in_rev. }
  unfold getitem. split; [|split].
  - intros v Hv. now rewrite (find_unique v_name _ v N Hv).
  - intros a Ha Hn. rewrite (Hno _ Hn). now rewrite (find_unique a_name _ a NA Ha).
  - intros key Hk Hk'. rewrite (Hno _ Hk). destruct (find _ (List.rev (ds_axes ds))) as [a|] eqn:E; [|reflexivity]. exfalso. apply find_some in E as [E1 E2]. apply String.eqb_eq in E2. apply Hk'. rewrite <- E2. apply in_map. now apply in_rev.
Qed.
Print Assumptions C44_lookup.

(** A dataset built from variables that are already well named holds just these variables (so does one built from another dataset's
    variables) ... *)
Lemma well_named_objects {V} (vars : list (vobj V)) next : well_named vars -> objects (axes_of vars) next -> forall env junk enc, env_ok env ->
  exists ds, make_dataset env junk enc next vars = Some ds /\ ds_vars ds = vars.
Proof.
  intros (N1 & N2 & N3) Hob env junk enc Henv. destruct (make_spec env Henv junk enc next vars Hob) as (ds & Hds & HF & Hn & Ha & Hsame). exists ds. split; [exact Hds|]. apply Hsame; [|now apply names_same].
  assert (forall v, In v vars -> incl (v_axes v) (axes_of vars)) as Hall by (intros v Hv a Ha'; eapply in_axes_of; eassumption).
  clear -HF Hall N3 Hob. remember (axes_of vars) as P. clear HeqP. induction HF as [|v w A B [G _] _ IH]; constructor.
  - specialize (Hall v (or_introl eq_refl)). clear -G Hall N3 Hob. induction G as [|a b X Y Hab _ IH]; [reflexivity|]. f_equal.
    + apply (new_alone enc next P Hob a b); [apply Hall; now left|exact Hab|]. intros c Hc Ec. apply N3; [exact Hc|apply Hall; now left|exact Ec].
    + apply IH. intros x Hx. apply Hall. now right.
  - apply IH. intros x Hx. apply Hall. now right.
Qed.
Theorem C44_unchanged : forall V env (junk : list Z -> V) enc next vars, env_ok env -> objects (axes_of vars) next -> well_named vars ->
  exists ds, make_dataset env junk enc next vars = Some ds /\ ds_vars ds = vars.
Proof. intros V env junk enc next vars Henv Hob Hw. now apply well_named_objects. Qed.
Print Assumptions C44_unchanged.

(** ... in particular, remove() leaves the other variables exactly as they were, and add() does not touch any variable if the new names
    are different; for well named datasets, as made by Dataset() (C44_made) *)
Theorem C44_made : forall V env (junk : list Z -> V) enc next vars ds, env_ok env -> objects (axes_of vars) next ->
  few_names (map (fun v => default_name (v_name v)) vars) -> few_axes (axes_of vars) -> make_dataset env junk enc next vars = Some ds -> well_named (ds_vars ds).
Proof.
  intros V env junk enc next vars ds Henv Hob Hfn Hfa Hds. destruct (C44_names V env junk enc next vars ds Henv Hob Hfn Hds) as [N N'].
  destruct (C44_axes V env junk enc next vars ds Henv Hob Hfa Hds) as (_ & Hiff & Hsame). split; [exact N|]. split; [exact N'|]. intros a b Ha Hb E. apply Hsame; [now apply Hiff|now apply Hiff|now left].
Qed.
Print Assumptions C44_made.
Theorem C44_remove : forall V env (junk : list Z -> V) enc next ds gone, env_ok env -> objects (axes_of (ds_vars ds)) next -> well_named (ds_vars ds) ->
  ((forall n, In n gone -> In n (map v_name (ds_vars ds))) ->
     exists ds', ds_remove env junk enc next ds gone = Some ds' /\
       forall v, In v (ds_vars ds') <-> In v (ds_vars ds) /\ ~ In (v_name v) gone) /\
  (forall n, In n gone -> ~ In n (map v_name (ds_vars ds)) -> ds_remove env junk enc next ds gone = None).
Proof.
  intros V env junk enc next ds gone Henv Hob (N1 & N2 & N3). unfold ds_remove. split.
  - intros Hall. replace (forallb _ gone) with true.
    2:{ symmetry. apply forallb_forall. intros n Hn. apply Hall in Hn. apply in_map_iff in Hn as (v & <- & Hv). apply existsb_exists. exists v. split; [exact Hv|apply String.eqb_refl]. }
    set (rest := filter _ (ds_vars ds)). assert (incl rest (ds_vars ds)) as Hincl by (intros v Hv; apply filter_In in Hv; tauto).
    assert (incl (axes_of rest) (axes_of (ds_vars ds))) as Hax by (intros a Ha; apply in_flat_map in Ha as (v & Hv & Ha); eapply in_axes_of; [apply Hincl, Hv|exact Ha]).
    destruct (well_named_objects rest next) with (env := env) (junk := junk) (enc := enc) as (ds' & Hds' & E); [|split; [intros a b Ha Hb; apply (proj1 Hob); auto|intros a Ha; apply (proj2 Hob); auto]|exact Henv|].
    + split; [|split; [intros K; apply N2; apply in_map_iff in K as (v & <- & Hv); apply in_map; auto|intros a b Ha Hb; apply N3; auto]].
      unfold rest. clear -N1. induction (ds_vars ds) as [|v l IH]; [constructor|]. cbn [map] in N1. inversion N1; subst. cbn [filter]. destruct (negb _); [|auto]. cbn [map]. constructor; [|auto].
      intros K. match goal with H : ~ In (v_name v) _ |- _ => apply H end. apply in_map_iff in K as (w & <- & Hw). apply filter_In in Hw as [Hw _]. now apply in_map.
    + exists ds'. split; [exact Hds'|]. rewrite E. intros v. unfold rest. rewrite filter_In, negb_true_iff, mem_not. tauto.
  - intros n Hn Hno. replace (forallb _ gone) with false; [reflexivity|]. symmetry. apply not_true_is_false. intros K. rewrite forallb_forall in K. specialize (K n Hn). apply existsb_exists in K as (v & Hv & E).
    apply String.eqb_eq in E. apply Hno. rewrite <- E. now apply in_map.
Qed.
Print Assumptions C44_remove.
Theorem C44_add : forall V env (junk : list Z -> V) enc next ds vars, env_ok env -> objects (axes_of (ds_vars ds ++ vars)) next -> well_named (ds_vars ds ++ vars) ->
  exists ds', ds_add env junk enc next ds vars = Some ds' /\ ds_vars ds' = ds_vars ds ++ vars.
Proof. intros V env junk enc next ds vars Henv Hob Hw. now apply well_named_objects. Qed.
Print Assumptions C44_add.

(** *** limits *)
Definition scalar (n : string) (z : Z) : vobj Z := MkVar n [] (Values (Arr [] (fun _ => z))).
Definition enc0 (s : string) : Z := Z.of_nat (String.length s).
Definition run_ds (vars : list (vobj Z)) := make_dataset env0 (fun _ => 0) enc0 1000 vars.
Definition reading (v : vobj Z) : option Z := option_map (fun r => val r []) (var_get env0 (fun _ => 0) (var_of v)).
Definition many : list (vobj Z) := repeat (scalar "a" 0) 101 ++ [scalar "a1" 1; scalar "a1" 1].
(** with a hundred variables of the same name, two variables can end up with the same name: only the last one is found under it *)
Theorem C44_hundred_refuted : exists vars ds v w u, objects (axes_of vars) 1000 /\ run_ds vars = Some ds /\
  nth_error (ds_vars ds) 100 = Some v /\ nth_error (ds_vars ds) 101 = Some w /\ v_name v = v_name w /\ reading v = Some 0 /\ reading w = Some 1 /\
  getitem ds (v_name v) = Some (AVar u) /\ reading u = Some 1.
Proof.
  exists many. assert (objects (axes_of many) 1000) as Hob by (split; [intros a b Ha|intros a Ha]; vm_compute in Ha; contradiction).
  assert (match run_ds many with
          | Some ds => match nth_error (ds_vars ds) 100, nth_error (ds_vars ds) 101, getitem ds "a101" with
                       | Some v, Some w, Some (AVar u) => Some (v_name v, v_name w, reading v, reading w, reading u)
                       | _, _, _ => None
                       end
          | None => None
          end = Some ("a101"%string, "a101"%string, Some 0, Some 1, Some 1)) as K by (vm_compute; reflexivity).
  destruct (run_ds many) as [ds|]; [|discriminate]. exists ds. destruct (nth_error (ds_vars ds) 100) as [v|]; [|discriminate]. destruct (nth_error (ds_vars ds) 101) as [w|]; [|discriminate].
  destruct (getitem ds "a101") as [[u|]|] eqn:G; try discriminate. injection K as K1 K2 K3 K4 K5. exists v, w, u. rewrite K1, K2. split; [exact Hob|]. repeat (split; [reflexivity || assumption|]). assumption.
Qed.
Print Assumptions C44_hundred_refuted.

(** an axis is not found under its name if a variable has the same name *)
Definition lat_obj : axobj := MkAx 1 "lat" lat2.
Theorem C44_shadow_refuted : exists vars ds v, objects (axes_of vars) 1000 /\ run_ds vars = Some ds /\ ds_axes ds = [lat_obj] /\ getitem ds (a_name lat_obj) = Some (AVar v).
Proof.
  set (v := MkVar "lat" [lat_obj] (Values (Arr [2] (fun p => nth 0 p 0)))). exists [v], (MkDs [v] [lat_obj]), v.
  split; [split; [intros a b [<-|[]] [<-|[]] _; reflexivity|intros a [<-|[]]; reflexivity]|]. repeat split; vm_compute; reflexivity.
Qed.
Print Assumptions C44_shadow_refuted.

(** *** the hypotheses are met: two variables of the same name; three axes of the same name, two of which agree *)
Definition other_lat : axis := Coord (MkCoord Plain [1] 7 [10; 25]%Q [] [] (1 # 100000)).
Definition three_vars : list (vobj Z) :=
  [MkVar "t" [lat_obj; MkAx 2 "lon" lon3] (Values (Arr [2; 3] (fun p => 10 * nth 0 p 0 + nth 1 p 0)));
   MkVar "t" [MkAx 3 "lat" other_lat] (Values (Arr [2] (fun p => 100 + nth 0 p 0)));
   MkVar "" [MkAx 4 "lat" lat2; MkAx 2 "lon" lon3] (Values (Arr [2; 3] (fun p => 200 + nth 1 p 0)))].
Definition look (ds : option (dataset (V := Z))) :=
  match ds with Some ds => Some (map (fun v => (v_name v, map a_name (v_axes v), map a_id (v_axes v))) (ds_vars ds), map a_name (ds_axes ds)) | None => None end.
Example C44_nonvacuous :
  objects (axes_of three_vars) 1000 /\ few_names (map (fun v => default_name (v_name v)) three_vars) /\ few_axes (axes_of three_vars) /\ equality_on (axes_of three_vars) /\
  look (run_ds three_vars) = Some ([("t01", ["lat01"; "lon"], [1000; 2]); ("t02", ["lat02"], [1001]); ("var", ["lat01"; "lon"], [1000; 2])],
                                   ["lat01"; "lon"; "lat02"])%string /\
  look (match run_ds three_vars with Some ds => ds_remove env0 (fun _ => 0) enc0 2000 ds ["t02"%string] | None => None end)
     = Some ([("t01", ["lat01"; "lon"], [1000; 2]); ("var", ["lat01"; "lon"], [1000; 2])], ["lat01"; "lon"])%string /\
  names ["a"; "a"; "a01"; ""; "a02"; "a"]%string = ["a01x"; "a02x"; "a01"; "var"; "a02"; "a03"]%string.
Proof.
  assert (forall a, In a (axes_of three_vars) -> In a [lat_obj; MkAx 2 "lon" lon3; MkAx 3 "lat" other_lat; MkAx 4 "lat" lat2]) as Hin.
  { intros a Ha. cbn in Ha. cbn. tauto. }
  split; [|split; [|split; [|split; [|split; [vm_compute; reflexivity|split; vm_compute; reflexivity]]]]].
  - split.
    + intros a b Ha Hb E. apply Hin in Ha, Hb. cbn in Ha, Hb. destruct Ha as [<-|[<-|[<-|[<-|[]]]]], Hb as [<-|[<-|[<-|[<-|[]]]]]; try reflexivity; discriminate E.
    + intros a Ha. apply Hin in Ha. cbn in Ha. destruct Ha as [<-|[<-|[<-|[<-|[]]]]]; reflexivity.
  - intros n. assert (forall l, (occurrences n l <= length l)%nat) as K. { induction l as [|m l IH]; [apply le_n|]. cbn [occurrences length]. destruct (String.eqb m n); lia. }
    specialize (K (map (fun v => default_name (v_name v)) three_vars)). apply Nat.le_lt_trans with 3%nat; [exact K|apply Nat.ltb_lt; reflexivity].
  - intros hs Hincl Hp. assert (NoDup hs) as N.
    { apply NoDup_nth_error. intros i j Hi E. destruct (nth_error hs i) as [h|] eqn:Ei; [|apply nth_error_None in Ei; lia]. symmetry in E.
      destruct (Nat.lt_trichotomy i j) as [L|[L|L]]; [|exact L|]; exfalso.
      - apply (proj2 (Hp i j h h L Ei E)). now left.
      - apply (proj2 (Hp j i h h L E Ei)). now left. }
    apply NoDup_incl_length with (l' := [lat_obj; MkAx 2 "lon" lon3; MkAx 3 "lat" other_lat; MkAx 4 "lat" lat2]) in N; [apply Nat.le_lt_trans with 4%nat; [exact N|apply Nat.ltb_lt; reflexivity]|]. intros h Hh. now apply Hin, Hincl.
  - split; [|split].
    + intros x Hx. apply Hin in Hx. cbn in Hx. destruct Hx as [<-|[<-|[<-|[<-|[]]]]]; vm_compute; reflexivity.
    + intros x y Hx Hy. apply Hin in Hx, Hy. cbn in Hx, Hy. destruct Hx as [<-|[<-|[<-|[<-|[]]]]], Hy as [<-|[<-|[<-|[<-|[]]]]]; vm_compute; intros; congruence.
    + intros x y z Hx Hy Hz. apply Hin in Hx, Hy, Hz. cbn in Hx, Hy, Hz. destruct Hx as [<-|[<-|[<-|[<-|[]]]]], Hy as [<-|[<-|[<-|[<-|[]]]]], Hz as [<-|[<-|[<-|[<-|[]]]]]; vm_compute; intros; congruence.
Qed.
