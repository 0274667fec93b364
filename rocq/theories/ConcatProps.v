(** C28: concatenation of variables. *)
From Coq Require Import ZArith List Bool Lia QArith_base.
From Verif Require Import CalModel TimeSearchModel SortSpec IndexModel IndexSpec IndexProofs ArrModel ArrProofs ViewModel ViewSpec ViewProofs AxisModel AxisSpec AxisProofs
     VarOpsModel VarOpsSpec VarOpsProofs ReduceModel ReduceSpec RespondProofs UfuncModel UfuncSpec UfuncProofs NumModel StencilModel StencilSpec
     ConcatModel ConcatSpec ConcatProofs ConcatAxis ConcatVar ViewProps EnvExample AxisProps ReduceProps StencilProps.
Import ListNotations.
Open Scope Z_scope.

(** concat(x0, ..., xn, iaxis=d): the segments one after the other along axis [d], whatever part is read.  [named] and
    [concat_name] stand for the class NamedAxis and the name "concat", which are not used here. *)
Theorem C28_concat : forall env, env_ok env -> forall V (junk : list Z -> V) named concat_name x0 (rest : list (var axis V)) datas d a0 segs whole,
  Forall2 (responds env) (x0 :: rest) datas ->
  Forall (fun x => matching d (var_axes x0) (var_axes x)) rest ->
  Forall2 (fun x a => nth_error (var_axes x) d = Some a) (x0 :: rest) (a0 :: segs) ->
  Forall tight_axis (a0 :: segs) -> Forall (may_follow a0) segs ->
  axis_concat env (a0 :: segs) = Some whole -> good_axis whole ->
  exists y D, concat_var env junk named concat_name (x0 :: rest) (Some d) = Some y /\
    var_axes y = set_at (var_axes x0) d whole /\ computes env y D /\ joins d (combine (map axis_len (a0 :: segs)) datas) D.
Proof.
  intros env Henv V junk named cn x0 rest datas d a0 segs whole H1 H2 H3 H4 H5 H6 H7.
  destruct (concat_spec env Henv junk named cn x0 rest datas d a0 segs whole H1 H2 H3 H4 H5 H6 H7) as (y & D & K1 & K2 & K3 & K4).
  exists y, D. split; [exact K1|]. split; [exact K2|]. split; [now apply computed|exact K4].
Qed.
Print Assumptions C28_concat.

(** the concatenated axis has the elements of the segments in this order; coordinate axes can always be concatenated *)
Theorem C28_axis : forall env a0 segs,
  Forall (fun b => prefix (axis_class a0) (axis_class b) = true /\ may_follow a0 b) segs -> Forall tight_axis (a0 :: segs) ->
  (forall whole, axis_concat env (a0 :: segs) = Some whole ->
     elements whole = List.concat (map elements (a0 :: segs)) /\ axis_class whole = axis_class a0 /\ may_follow a0 whole) /\
  (forall c, a0 = Coord c -> exists whole, axis_concat env (a0 :: segs) = Some whole).
Proof.
  intros env a0 segs Hf Ht. split.
  - intros whole E. destruct (whole_spec env a0 segs whole E Hf Ht) as (W1 & _ & W3 & _ & W5). split; [exact W5|]. split; [exact W3|].
    specialize (W1 [] a0 segs eq_refl) as (_ & _ & W1). clear -W1. destruct whole, a0; try tauto.
    + destruct W1 as (_ & W & _). cbn in *. destruct (c_kind c), (c_kind c0); auto.
    + destruct W1 as ((? & ?) & _). cbn. auto.
    + destruct W1 as ((? & ?) & _). cbn. auto.
  - intros c ->. destruct segs as [|b segs]; [eexists; reflexivity|]. unfold axis_concat.
    assert (Forall (fun b => prefix (c_class c) (axis_class b) = true /\ may_follow (Coord c) b) (Coord c :: b :: segs)) as Hall
      by (constructor; [split; [apply prefix_refl|apply may_follow_refl]|exact Hf]).
    change (map axis_class (Coord c :: b :: segs)) with (c_class c :: map axis_class (b :: segs)).
    rewrite (common_class_first (c_class c) (map axis_class (b :: segs))).
    2:{ change (c_class c :: map axis_class (b :: segs)) with (map axis_class (Coord c :: b :: segs)). rewrite Forall_map. eapply Forall_impl; [|exact Hall]. intros x H; apply H. }
    cbn [bind]. destruct (coords_of c (Coord c :: b :: segs)) as (cs & Ec & Es); [eapply Forall_impl; [|exact Hall]; intros x H; apply H|]. rewrite Ec. cbn [bind].
    destruct cs as [|c' cs]; [discriminate|]. injection Es as <- _. cbn [find]. rewrite class_eqb_refl. cbn [bind]. eexists. reflexivity.
Qed.
Print Assumptions C28_axis.

(** without iaxis, the axis is the only one in which the first variable is equivalent to none of the others; in all other axes it is
    equivalent to all of them *)
Theorem C28_auto : forall env V (junk : list Z -> V) named concat_name x0 (rest : list (var axis V)) d,
  rest <> [] -> Forall (fun x => length (var_axes x) = length (var_axes x0)) rest -> (d < length (var_axes x0))%nat ->
  differ (var_axes x0) (map var_axes rest) d ->
  (forall j, (j < length (var_axes x0))%nat -> j <> d -> agree (var_axes x0) (map var_axes rest) j) ->
  concat_var env junk named concat_name (x0 :: rest) None = concat_var env junk named concat_name (x0 :: rest) (Some d).
Proof.
  intros env V junk named cn x0 rest d Hne Hlen Hd Hdf Hag. unfold concat_var.
  rewrite (proj2 (found_axis (map var_axes rest) ltac:(destruct rest; [congruence|discriminate]) (var_axes x0) d)) by auto.
  rewrite (proj2 (Nat.ltb_lt d (length (var_axes x0))) Hd). reflexivity.
Qed.
Print Assumptions C28_auto.

(** otherwise, unless all the axes are equivalent, the request is refused *)
Theorem C28_refused : forall env V (junk : list Z -> V) named concat_name x0 (rest : list (var axis V)) y,
  rest <> [] -> concat_var env junk named concat_name (x0 :: rest) None = Some y ->
  exists d, (forall j, (j < length (var_axes x0))%nat -> j <> d -> agree (var_axes x0) (map var_axes rest) j) /\
    (d = length (var_axes x0) \/ (d < length (var_axes x0))%nat /\ differ (var_axes x0) (map var_axes rest) d).
Proof.
  intros env V junk named cn x0 rest y Hne H. unfold concat_var in H. destruct (negb _) eqn:El; [discriminate|].
  destruct (find_concat_axis (var_axes x0) (map (@var_axes _ _) rest)) as [d|] eqn:Ed; [|discriminate].
  exists d. revert Ed. apply found_axis. destruct rest; [congruence|discriminate].
Qed.
Print Assumptions C28_refused.

(** if all the axes are equivalent, a new axis at the end numbers the variables *)
Theorem C28_stack : forall env, env_ok env -> forall V (junk : list Z -> V) named concat_name x0 (rest : list (var axis V)) datas new,
  let vars := x0 :: rest in let n := length (var_axes x0) in
  new = new_axis env named concat_name (length vars) -> rest <> [] ->
  Forall2 (responds env) vars datas ->
  Forall (fun x => matching n (var_axes x0) (var_axes x)) rest ->
  (forall a, In a (var_axes x0) -> unrelated a new /\ unrelated new a) ->
  (forall j, (j < n)%nat -> agree (var_axes x0) (map var_axes rest) j) ->
  exists y D, concat_var env junk named concat_name vars None = Some y /\
    var_axes y = var_axes x0 ++ [new] /\ axis_vals new = map (fun i => inject_Z (Z.of_nat i)) (seq 0 (length vars)) /\ computes env y D /\
    forall q k E, length q = n -> nth_error datas k = Some E -> D (q ++ [Z.of_nat k]) = E q.
Proof.
  intros env Henv V junk named cn x0 rest datas new vars n -> Hne H1 H2 H3 H4.
  destruct (stack_spec env junk named cn x0 rest datas H1 H2 H3) as (y & D & K1 & K2 & K3 & K4).
  { apply found_axis; [destruct rest; [congruence|discriminate]|]. split; [intros j Hj _; now apply H4|now left]. }
  exists y, D. split; [exact K1|]. split; [exact K2|]. split; [reflexivity|]. split; [now apply computed|exact K4].
Qed.
Print Assumptions C28_stack.

(** a single variable is returned as it is *)
Theorem C28_single : forall env V (junk : list Z -> V) named concat_name (x : var axis V) iaxis, concat env junk named concat_name [x] iaxis = Some x.
Proof. reflexivity. Qed.
Print Assumptions C28_single.

(** *** examples *)
Definition lon1 : axis := Coord (MkCoord Plain [2; 5] 3 [8]%Q [] [] (1 # 100000)).
Definition row (p : list Z) : num := num_of_Z (100 * nth 0 p 0 + 50).
Definition field1 : var axis num := source [lat2; lon1] row.
Definition named_class : list Z := [77].
Definition cat (iaxis : option nat) := concat env0 zs named_class 99 [field; field1] iaxis.
(** all, and a part with the border inside *)
Example C28_example :
  show (cat (Some 1%nat)) [[0; 1]; [0; 1; 2; 3]] [[0; 0]; [0; 1]; [0; 3]; [1; 2]; [1; 3]] =
    Some ([2; 4], [Some 1; None; Some 50; Some 9; Some 150]%Q) /\
  show (cat None) [[1]; [2; 3]] [[0; 0]; [0; 1]] = Some ([1; 2], [Some 9; Some 150]%Q) /\
  show (concat env0 zs named_class 99 [field; field; field] None) [[1]; [0; 2]; [0; 2]] [[0; 0; 0]; [0; 1; 1]] = Some ([1; 2; 2], [Some 4; Some 9]%Q) /\
  show (concat env0 zs named_class 99 [field; field1; source [lon3] wlon] None) [] [] = None.
Proof. vm_compute. repeat split; reflexivity. Qed.

Ltac axes2 i j := destruct i as [|[|i]]; destruct j as [|[|j]]; cbn in *; try discriminate; try (destruct i; discriminate); try (destruct j; discriminate).
Lemma lon1_good : tight_axis lon1.
Proof. split; [|cbn; unfold Qle; cbn; lia]. split; [|split; [constructor|cbn; unfold Qle; cbn; lia]]. intros i j x y [Hi Hx] [Hj Hy] Hne. cbn in Hx, Hy.
  destruct (Z.to_nat i) as [|n] eqn:E1; [|destruct n; discriminate]. destruct (Z.to_nat j) as [|m] eqn:E2; [lia|destruct m; discriminate]. Qed.
Lemma lon4_good : forall whole, axis_concat env0 [lon3; lon1] = Some whole -> good_axis whole.
Proof.
  intros whole E. injection E as <-. split; [|split].
  - cbn [c_vals]. intros i j x y [Hi Hx] [Hj Hy] Hne K.
    assert (forall k w, 0 <= k -> nth_error [0; 5; 7; 8]%Q (Z.to_nat k) = Some w -> (k = 0 /\ w = 0%Q) \/ (k = 1 /\ w = 5%Q) \/ (k = 2 /\ w = 7%Q) \/ (k = 3 /\ w = 8%Q)) as Hc.
    { intros k w Hk H. destruct (Z.to_nat k) as [|[|[|[|n]]]] eqn:En; cbn in H; try (destruct n; discriminate); injection H as <-; [left|right; left|right; right; left|right; right; right]; (split; [lia|reflexivity]). }
    apply close_spec in K. destruct (Hc i x Hi Hx) as [[-> ->]|[[-> ->]|[[-> ->]|[-> ->]]]], (Hc j y Hj Hy) as [[-> ->]|[[-> ->]|[[-> ->]|[-> ->]]]]; try congruence; vm_compute in K; discriminate.
  - constructor.
  - cbn [c_rtol]. unfold Qle; cbn; lia.
Qed.
Example C28_concat_used : exists y D whole, concat_var env0 zs named_class 99 [field; field1] (Some 1%nat) = Some y /\ axis_concat env0 [lon3; lon1] = Some whole /\
  var_axes y = [lat2; whole] /\ computes env0 y D /\ joins 1 [(3, obs); (1, row)] D.
Proof.
  destruct (axis_concat env0 [lon3; lon1]) as [whole|] eqn:Ew; [|vm_compute in Ew; discriminate].
  assert (separate [lat2; lon1]) as Hs.
  { intros i j a b Ha Hb Hne. axes2 i j; try congruence; injection Ha as <-; injection Hb as <-; vm_compute; reflexivity. }
  pose proof field_good as Hg. cbn in Hg. inversion Hg as [|? ? Glat Hg']; subst. inversion Hg' as [|? ? Glon _]; subst.
  destruct (C28_concat env0 env0_ok num zs named_class 99 field [field1] [obs; row] 1%nat lon3 [lon1] whole) as (y & D & H1 & H2 & H3 & H4).
  - constructor; [apply field_responds|]. constructor; [|constructor]. now apply source_responds.
  - constructor; [|constructor]. split; [reflexivity|]. split; [|split].
    + intros j a b Ha Hb. destruct j as [|[|j]]; cbn in Ha, Hb; try (destruct j; discriminate); injection Ha as <-; injection Hb as <-; reflexivity.
    + intros j a b Hj Ha Hb. destruct j as [|[|j]]; cbn in Ha, Hb; try (destruct j; discriminate); injection Ha as <-; injection Hb as <-; [vm_compute; reflexivity|congruence].
    + intros j k a b Hne Ha Hb. axes2 j k; try congruence; injection Ha as <-; injection Hb as <-; vm_compute; reflexivity.
  - repeat constructor.
  - constructor; [|constructor; [apply lon1_good|constructor]]. split; [exact Glon|]. cbn. unfold Qle; cbn; lia.
  - repeat constructor.
  - exact Ew.
  - now apply lon4_good.
  - exists y, D, whole. auto.
Qed.

Example C28_stack_used : exists y D, concat_var env0 zs named_class 99 [field; field] None = Some y /\
  var_axes y = [lat2; lon3; new_axis env0 named_class 99 2] /\ computes env0 y D /\ D [1; 2; 1] = obs [1; 2].
Proof.
  assert (separate [lat2; lon3]) as Hs by apply field_responds.
  destruct (C28_stack env0 env0_ok num zs named_class 99 field [field] [obs; obs] _ eq_refl) as (y & D & H1 & H2 & H3 & H4 & H5).
  - discriminate.
  - constructor; [apply field_responds|]. constructor; [apply field_responds|constructor].
  - constructor; [|constructor]. now apply matching_self.
  - intros a [<-|[<-|[]]]; split; vm_compute; auto.
  - intros j Hj a o Ha [<-|[]]. exists a. split; [exact Ha|]. destruct j as [|[|j]]; cbn in Ha; try (destruct j; discriminate); injection Ha as <-; vm_compute; reflexivity.
  - exists y, D. split; [exact H1|]. split; [exact H2|]. split; [exact H4|]. apply (H5 [1; 2] 1%nat obs); reflexivity.
Qed.

Example C28_auto_used : cat None = cat (Some 1%nat).
Proof.
  apply C28_auto.
  - discriminate.
  - repeat constructor.
  - cbn. lia.
  - intros a o Ha [<-|[]] b Hb. cbn in Ha, Hb. injection Ha as <-. injection Hb as <-. vm_compute. reflexivity.
  - intros [|[|j]] Hj Hne a o Ha [<-|[]]; cbn in Ha, Hj; try lia; try congruence. injection Ha as <-. exists lat2. split; [reflexivity|vm_compute; reflexivity].
Qed.

(** *** what is not true *)
(** The coordinates must not overlap: two variables on a NamedAxis (whose values are 0, 1, ...) can be concatenated, but the
    result cannot be read. *)
Definition member2 : axis := Coord (MkCoord Named [77] 5 [0; 1]%Q [] [] (1 # 100000)).
Definition members : var axis num := source [member2] wlon.
Lemma members_unreadable : exists y, concat_var env0 zs named_class 99 [members; members] (Some 0%nat) = Some y /\ var_get env0 zs y = None.
Proof.
  assert (option_map (fun y => match var_get env0 zs y with Some _ => true | None => false end) (concat_var env0 zs named_class 99 [members; members] (Some 0%nat)) = Some false) as K
    by (vm_compute; reflexivity).
  destruct (concat_var env0 zs named_class 99 [members; members] (Some 0%nat)) as [y|]; [|discriminate]. exists y. split; [reflexivity|].
  cbn [option_map] in K. destruct (var_get env0 zs y); [discriminate|reflexivity].
Qed.
Theorem C28_overlap_refuted :
  ~ forall env, env_ok env -> forall (junk : list Z -> num) named concat_name x0 rest datas d a0 segs y,
      Forall2 (responds env) (x0 :: rest) datas ->
      Forall (fun x => matching d (var_axes x0) (var_axes x)) rest ->
      Forall2 (fun x a => nth_error (var_axes x) d = Some a) (x0 :: rest) (a0 :: segs) ->
      Forall tight_axis (a0 :: segs) -> Forall (may_follow a0) segs ->
      concat_var env junk named concat_name (x0 :: rest) (Some d) = Some y -> exists D, responds env y D.
Proof.
  intros H. destruct members_unreadable as (y & E & Hy).
  assert (separate [member2]) as Hs by (intros [|i] [|j] a b Ha Hb Hne; cbn in Ha, Hb; try congruence; try (destruct i; discriminate); destruct j; discriminate).
  assert (responds env0 members wlon) as Hx by now apply source_responds.
  assert (good_axis member2) as Hg.
  { split; [|split; [constructor|cbn; unfold Qle; cbn; lia]]. intros i j a b [Hi Ha] [Hj Hb] Hne K. apply close_spec in K. cbn [c_vals] in Ha, Hb.
    destruct (Z.to_nat i) as [|[|n]] eqn:Ei; destruct (Z.to_nat j) as [|[|m]] eqn:Ej; cbn in Ha, Hb; try (destruct n; discriminate); try (destruct m; discriminate); try lia;
    injection Ha as <-; injection Hb as <-; vm_compute in K; discriminate. }
  destruct (H env0 env0_ok zs named_class 99 members [members] [wlon; wlon] 0%nat member2 [member2] y) as (D & HD).
  - constructor; [exact Hx|]. constructor; [exact Hx|constructor].
  - constructor; [|constructor]. now apply matching_self.
  - repeat constructor.
  - assert (tight_axis member2) as Ht by (split; [exact Hg|cbn; unfold Qle; cbn; lia]). constructor; [exact Ht|]. constructor; [exact Ht|constructor].
  - repeat constructor.
  - exact E.
  - destruct (responds_get env0 env0_ok zs y D HD) as (r & Er & _).
    congruence.
Qed.
Print Assumptions C28_overlap_refuted.
