(** Element-wise operations on several variables (C30). *)
From Coq Require Import ZArith List Bool Lia QArith_base.
From Verif Require Import SortSpec IndexModel IndexSpec IndexProofs ArrModel ArrProofs ViewModel ViewSpec ViewProofs
     AxisModel AxisSpec AxisProofs VarOpsModel VarOpsSpec VarOpsProofs ReduceModel ReduceSpec LoopProofs RespondProofs UfuncModel UfuncSpec UfuncProofs UfuncView NumModel EnvExample ViewProps ReduceProps.
Import ListNotations.
Open Scope Z_scope.

Section Env.
Context (env : axenv) (Henv : env_ok env).

Lemma located_place B axes js p : Forall2 (located B) axes js -> position (map axis_len B) p ->
  let q := map (fun '(i, ind) => znth ind (nth i p 0)) js in position (map axis_len axes) q /\ same_place axes q B p.
Proof.
  intros H Hp. cbn. induction H as [|a [i ind] axes js (_ & _ & b & Hb & Hr) _ [IH1 IH2]]; [split; constructor|]. cbn [fst snd map] in *.
  pose proof Hr as (Ga & Hl & _ & Hs). pose proof (sliced_len _ _ _ Ga Hs) as HL.
  assert (exists k, nth_error p i = Some k /\ 0 <= k < axis_len b) as (k & Hk & Rk).
  { assert (nth_error (map axis_len B) i = Some (axis_len b)) as E by (rewrite nth_error_map, Hb; reflexivity).
    destruct (nth_error p i) as [k|] eqn:Ek.
    - exists k. split; [reflexivity|]. exact (Forall2_nth_error _ _ _ _ _ _ Hp E Ek).
    - apply nth_error_None in Ek. pose proof (Forall2_len _ _ _ Hp). assert (i < length (map axis_len B))%nat by (apply nth_error_Some; congruence). lia. }
  rewrite (nth_error_nth _ _ 0 Hk). rewrite HL in Rk. pose proof (elem_znth ind k Rk) as Hel. split; constructor; auto.
  - eapply in_range_elem; [exact Hl|exact Hel].
  - exists i, b, ind, k. auto.
Qed.

Lemma C30_proof V junk op (args : list (UfuncModel.arg V)) data : Forall2 (supplies env) args data -> variables args <> [] ->
  (forall a, In a (concat (map var_axes (variables args))) -> tight_axis a) ->
  (forall a b, In a (concat (map var_axes (variables args))) -> In b (concat (map var_axes (variables args))) -> compatible a b) ->
  exists y D, ufunc_var env junk op args = Some y /\
    separate (var_axes y) /\
    (forall b, In b (var_axes y) -> In b (concat (map var_axes (variables args)))) /\
    (forall a, In a (concat (map var_axes (variables args))) -> exists b l, In b (var_axes y) /\ restricts a l b) /\
    responds env y D /\ (forall junk', delivers env junk' y D) /\
    forall p, position (var_shape y) p ->
      exists vals, Forall2 (fun '(a, Da) v => contributes (var_axes y) p a Da v) (combine args data) vals /\ D p = op vals.
Proof.
  intros H1 H2 H3 H4. destruct (ufunc_spec env Henv junk op args data H1 H2) as (y & E & S & I1 & C & Es & HEs & R).
  { apply Forall_forall. exact H3. } { exact H4. }
  exists y. eexists. split; [exact E|]. split; [exact S|]. split; [exact I1|]. split; [exact C|]. split; [exact R|].
  split; [intros junk'; now apply responds_delivers|]. intros p Hp. eexists. split; [|reflexivity].
  clear - HEs Hp. induction HEs as [|[a D] F l Fs H _ IH]; cbn [map]; constructor; [|exact IH]. cbn [fst snd] in H. destruct a as [c|x].
  - apply H.
  - destruct H as (js & Hjs & _ & HF). destruct (located_place (var_axes y) (var_axes x) js p Hjs Hp) as [K1 K2]. eexists. split; [exact K1|]. split; [exact K2|]. apply HF.
Qed.

Lemma place_unique A q q' B p : separate B -> same_place A q B p -> same_place A q' B p -> q = q'.
Proof.
  intros Hsep H. revert q'. induction H as [|a i A q (j & b & l & k & Hb & Hr & Hp & Hk) _ IH]; intros q' H'; inversion H' as [|? i' ? q'' (j' & b' & l' & k' & Hb' & Hr' & Hp' & Hk') H'']; subst; [reflexivity|].
  f_equal; [|now apply IH]. destruct Hr as (Ga & Hl & _ & Hs), Hr' as (_ & Hl' & _ & Hs').
  assert (j = j') as <-.
  { destruct (Nat.eq_dec j j') as [|Hne]; [assumption|exfalso]. pose proof (Hsep j j' b b' Hb Hb' Hne) as U.
    apply (sliced_unrelated_l _ _ _ b' Hs) in U. apply (sliced_unrelated_l _ _ _ b' Hs') in U. apply unrelated_same in U. now rewrite same_refl in U. }
  rewrite Hb in Hb'. injection Hb' as <-. rewrite Hp in Hp'. injection Hp' as <-.
  pose proof (sliced_map env Henv a l b Ga Hl Hs) as E. rewrite (sliced_map env Henv a l' b Ga Hl' Hs') in E. injection E as ->.
  destruct Hk as [_ Hk], Hk' as [_ Hk']. congruence.
Qed.
End Env.

(** C30: an element-wise operation on variables and numbers yields a variable whose axes belong to
    different dimensions, are axes of the inputs, and contain every axis of the inputs (up to a restriction
    to the common elements); each of its elements is the result of the operation on the numbers and on the
    elements of the variables at the same coordinates. *)
Theorem C30_elementwise : forall (env : axenv), env_ok env -> forall V junk op (args : list (UfuncModel.arg V)) data,
  Forall2 (supplies env) args data -> variables args <> [] ->
  let inputs := concat (map var_axes (variables args)) in
  (forall a, In a inputs -> tight_axis a) -> (forall a b, In a inputs -> In b inputs -> compatible a b) ->
  exists y D, ufunc_var env junk op args = Some y /\
    separate (var_axes y) /\
    (forall b, In b (var_axes y) -> In b inputs) /\
    (forall a, In a inputs -> exists b l, In b (var_axes y) /\ restricts a l b) /\
    responds env y D /\ (forall junk', delivers env junk' y D) /\
    forall p, position (var_shape y) p ->
      exists vals, Forall2 (fun '(a, Da) v => contributes (var_axes y) p a Da v) (combine args data) vals /\ D p = op vals.
Proof. exact C30_proof. Qed.
Print Assumptions C30_elementwise.

(** the position of a variable that belongs to a position of the result is unique *)
Theorem C30_place : forall env, env_ok env -> forall A q q' B p, separate B -> same_place A q B p -> same_place A q' B p -> q = q'.
Proof. exact place_unique. Qed.
Print Assumptions C30_place.

(** the axes of the result are those of the first variable, in the same order, if the others have no axes of their own *)
Theorem C30_order : forall env, env_ok env -> forall A rest, (forall a, In a A -> tight_axis a) -> separate A ->
  Forall (fun l => forall a, In a l -> In a A) rest -> combine_axes env (A :: rest) = Some A.
Proof.
  intros env Henv A rest HA Hs Hr. apply (combine_first env Henv A); auto; [|intros a Ha; exact Ha]. apply Forall_forall. exact HA.
Qed.
Print Assumptions C30_order.

(** *** example: a 2 x 3 table plus a row whose axis has two of the three elements, in the other order, plus 10 *)
Definition lon2 : axis := Coord (MkCoord Plain [2] 2 [7; 0]%Q [(9, [3; 1]%Q)] [] (1 # 100000)).
Definition gusts (q : list Z) : num := match q with [0] => num_of_Z 100 | _ => num_of_Z 200 end.
Definition row2 : var axis num := source [lon2] gusts.
Definition added : list num -> num := fold_right add zero.
Definition arguments : list (UfuncModel.arg num) := [AVar field; ANum (num_of_Z 10); AVar row2].

Lemma lon3_lon2 : restricts lon3 [2; 0] lon2.
Proof.
  pose proof field_good as H. inversion H as [|? ? _ H']; subst. inversion H' as [|? ? G _]; subst.
  split; [exact G|]. split; [repeat constructor; cbn; lia|]. split; [repeat constructor; cbn; intuition lia|]. repeat split. discriminate.
Qed.
Example C30_example :
  Forall2 (supplies env0) arguments [obs; fun _ => num_of_Z 10; gusts] /\ variables arguments <> [] /\
  (forall a, In a (concat (map var_axes (variables arguments))) -> tight_axis a) /\
  (forall a b, In a (concat (map var_axes (variables arguments))) -> In b (concat (map var_axes (variables arguments))) -> compatible a b) /\
  show (ufunc_var env0 zs added arguments) [[0; 1]; [0; 1]] [[0; 0]; [0; 1]; [1; 0]; [1; 1]] = Some ([2; 2], [Some 113%Q; Some 211%Q; Some 119%Q; Some 214%Q]) /\
  option_map var_axes (ufunc_var env0 zs added arguments) = Some [lat2; lon2] /\
  combine_axes env0 [[lat2; lon3]; [lon3]] = Some [lat2; lon3].
Proof.
  pose proof field_good as H. inversion H as [|? ? G1 H']; subst. inversion H' as [|? ? G2 _]; subst. pose proof (restricts_good _ _ _ lon3_lon2) as G3.
  assert (forall a, In a (concat (map var_axes (variables arguments))) -> a = lat2 \/ a = lon3 \/ a = lon2) as Hin.
  { cbn. intuition. }
  split. { constructor; [apply field_responds|]. constructor; [intros p; reflexivity|]. constructor; [|constructor]. apply source_responds.
    intros [|i] [|j] a b Ha Hb Hne; cbn in Ha, Hb; try congruence; try (destruct i; discriminate); try (destruct j; discriminate). }
  split; [discriminate|]. split.
  { intros a Ha. apply Hin in Ha as [->|[->| ->]]; (split; [assumption|cbn; apply Qle_refl]). }
  split.
  { intros a b Ha Hb. apply Hin in Ha, Hb.
    assert (forall c, good_axis c -> compatible c c) as Hrefl by (intros c Gc; right; left; eexists; apply restricts_refl, Gc).
    destruct Ha as [->|[->| ->]], Hb as [->|[->| ->]]; try (apply Hrefl; assumption); try (left; split; reflexivity).
    - right. left. eexists. apply lon3_lon2.
    - right. right. eexists. apply lon3_lon2. }
  split; [vm_compute; reflexivity|]. split; [vm_compute; reflexivity|]. apply C30_order; [apply env0_ok| | |].
  - intros a [<-|[<-|[]]]; (split; [assumption|cbn; apply Qle_refl]).
  - exact (proj1 field_responds).
  - constructor; [|constructor]. intros a [<-|[]]. right. now left.
Qed.
