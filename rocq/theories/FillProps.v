(** C68: missing values and types of elements *)
From Coq Require Import ZArith List Bool Lia QArith_base Qcanon.
From Verif Require Import SortSpec IndexModel IndexSpec IndexProofs ArrModel ViewModel ViewSpec AxisModel AxisSpec VarOpsModel VarOpsSpec VarOpsProofs EnvExample ViewProps
  NumModel ReduceModel ReduceSpec ReduceProps RespondProofs StencilModel StencilSpec StencilProps FillModel.
Import ListNotations.
Open Scope Z_scope.

Lemma each_computes {V W} env (junk : list Z -> V) (f : V -> W) (x : var axis V) D : env_ok env -> responds env x D -> computes env (each_var env junk f x) (fun p => f (D p)).
Proof.
  intros Henv Hx. apply computed; [exact Henv|]. split; [exact (proj1 Hx)|]. cbn. intros inds Hi.
  destruct (responds_part env Henv junk x D inds Hx Hi) as (r & Hr & Hs & Hv). unfold each_view. rewrite Hr. cbn [bind]. eexists. split; [reflexivity|]. split; [exact Hs|].
  intros p Hp. cbn [val]. now rewrite Hv.
Qed.
Lemma qc_eqb_eq p q : qc_eqb p q = true <-> p = q.
Proof. unfold qc_eqb. rewrite Qceq_alt. destruct (p ?= q)%Qc; split; congruence. Qed.
Lemma num_eqb_eq x y : num_eqb x y = true <-> x = y /\ x <> NaN.
Proof.
  destruct x, y; cbn; try rewrite qc_eqb_eq; (split; [intros H; try discriminate; split; congruence|intros [H K]; congruence]).
Qed.

(** x.fill(c): NaN is replaced by the fill value (as it is stored in an array of this type), and nothing else changes *)
Theorem C68_fill : forall env junk round c (x : var axis num) D, env_ok env -> responds env x D ->
  var_axes (fill_var env junk round c x) = var_axes x /\
  exists E, computes env (fill_var env junk round c x) E /\ forall p, (D p = NaN -> E p = round c) /\ (D p <> NaN -> E p = D p).
Proof.
  intros env junk round c x D Henv Hx. split; [reflexivity|]. eexists. split; [apply (each_computes env junk _ x D Henv Hx)|]. intros p. cbv beta. unfold filled.
  split; [intros ->; reflexivity|]. destruct (D p); try reflexivity. now intros K.
Qed.
Print Assumptions C68_fill.

(** x.unfill(c): the elements equal to the fill value become NaN, the others are the elements of x as floating point numbers *)
Theorem C68_unfill : forall {V} env (junk : list Z -> V) to_float round c (x : var axis V) D, env_ok env -> responds env x D ->
  var_axes (unfill_var env junk to_float round c x) = var_axes x /\
  exists E, computes env (unfill_var env junk to_float round c x) E /\
    forall p, (to_float (D p) = round c -> E p = NaN) /\ (to_float (D p) <> round c -> E p = to_float (D p)).
Proof.
  intros V env junk to_float round c x D Henv Hx. split; [reflexivity|]. eexists. split; [apply (each_computes env junk _ x D Henv Hx)|]. intros p. cbv beta. unfold unfilled.
  destruct (num_eqb (to_float (D p)) (round c)) eqn:E.
  - apply num_eqb_eq in E as [E _]. split; [reflexivity|congruence].
  - split; [|reflexivity]. intros H. rewrite H in E |- *. destruct (round c) eqn:Ec; try reflexivity; exfalso; rewrite (proj2 (num_eqb_eq _ _)) in E; (discriminate || split; congruence).
Qed.
Print Assumptions C68_unfill.

(** x.fill(c).unfill(c) has the data of x, if the fill value does not occur in it *)
Theorem C68_fill_unfill : forall env junk round c (x : var axis num) D, env_ok env -> responds env x D -> (forall p, position (var_shape x) p -> D p <> round c) ->
  let y := unfill_var env junk (fun v => v) round c (fill_var env junk round c x) in
  var_axes y = var_axes x /\ exists E, computes env y E /\ forall p, position (var_shape x) p -> E p = D p.
Proof.
  intros env junk round c x D Henv Hx Hc y. split; [reflexivity|].
  destruct (C68_fill env junk round c x D Henv Hx) as (_ & E & [HE _] & H1).
  destruct (C68_unfill env junk (fun v => v) round c _ E Henv HE) as (_ & F & HF & H2). exists F. split; [exact HF|]. intros p Hp. specialize (Hc p Hp).
  destruct (H1 p) as [A B], (H2 p) as [A' B']. destruct (D p) as [q| | |] eqn:ED.
  1-3: rewrite B in * by discriminate; apply B'; exact Hc.
  apply A', A. reflexivity.
Qed.
Print Assumptions C68_fill_unfill.
(** x.unfill(c).fill(c) has the data of x, if there is no NaN in it *)
Theorem C68_unfill_fill : forall env junk round c (x : var axis num) D, env_ok env -> responds env x D -> (forall p, position (var_shape x) p -> D p <> NaN) ->
  let y := fill_var env junk round c (unfill_var env junk (fun v => v) round c x) in
  var_axes y = var_axes x /\ exists E, computes env y E /\ forall p, position (var_shape x) p -> E p = D p.
Proof.
  intros env junk round c x D Henv Hx Hc y. split; [reflexivity|].
  destruct (C68_unfill env junk (fun v => v) round c x D Henv Hx) as (_ & E & [HE _] & H1).
  destruct (C68_fill env junk round c _ E Henv HE) as (_ & F & HF & H2). exists F. split; [exact HF|]. intros p Hp. specialize (Hc p Hp).
  destruct (H1 p) as [A B], (H2 p) as [A' B']. destruct (num_eqb (D p) (round c)) eqn:Ec.
  - apply num_eqb_eq in Ec as [Ec _]. rewrite (A' (A Ec)). congruence.
  - assert (D p <> round c) as K. { intros K. rewrite (proj2 (num_eqb_eq _ _)) in Ec; [discriminate|auto]. }
    rewrite (B K) in *. apply B', Hc.
Qed.
Print Assumptions C68_unfill_fill.

(** x.as_type(t) converts every element, and casting back gives the data again if no element is changed by the conversions *)
Theorem C68_as_type : forall {V W} env (junk : list Z -> V) (junk' : list Z -> W) (cast : V -> W) (back : W -> V) (x : var axis V) D, env_ok env -> responds env x D ->
  var_axes (cast_var env junk cast x) = var_axes x /\ computes env (cast_var env junk cast x) (fun p => cast (D p)) /\
  ((forall p, position (var_shape x) p -> back (cast (D p)) = D p) ->
   exists E, computes env (cast_var env junk' back (cast_var env junk cast x)) E /\ forall p, position (var_shape x) p -> E p = D p).
Proof.
  intros V W env junk junk' cast back x D Henv Hx. split; [reflexivity|]. pose proof (each_computes env junk cast x D Henv Hx) as H. split; [exact H|].
  intros Hb. eexists. split; [apply (each_computes env junk' back _ _ Henv (proj1 H))|]. exact Hb.
Qed.
Print Assumptions C68_as_type.

(** Integers are converted to float32, so that different integers may be taken for the fill value: 16777217 for 16777216.
    [float32]: rounding to the nearest multiple of 2, to even, for integers from 2^24 to 2^25 *)
Definition float32 (z : Z) : num :=
  num_of_Z (if (Z.abs z <=? 2 ^ 24) || Z.even z then z else if Z.even (z / 2) then 2 * (z / 2) else 2 * (z / 2) + 2).
Definition counts (p : list Z) : Z := match p with [0; 0] => 16777217 | [0; 1] => 16777216 | _ => 5 end.
Definition counted_var : var axis Z := Var [lat2; lon3] (GetView (fun v => Some (Arr (map zlen (vinds v)) (fun p => counts (gather (vinds v) p))))).
Lemma counted_responds : responds env0 counted_var counts.
Proof. split; [exact (proj2 (blocks_getable env0))|]. cbn. intros inds _. eexists. split; [reflexivity|]. split; reflexivity. Qed.
Theorem C68_rounded_refuted :
  ~ forall env (junk : list Z -> Z) (x : var axis Z) D c, env_ok env -> responds env x D ->
      exists E, computes env (unfill_var env junk float32 (fun v => v) (float32 c) x) E /\ forall p, position (var_shape x) p -> E p = NaN -> D p = c.
Proof.
  intros H. destruct (H env0 (fun _ => 0) counted_var counts 16777216 env0_ok counted_responds) as (E & [_ HE] & Hn).
  destruct (C68_unfill env0 (fun _ => 0) float32 (fun v => v) (float32 16777216) counted_var counts env0_ok counted_responds) as (_ & F & [_ HF] & HFn).
  assert (Forall2 choice (var_axes (unfill_var env0 (fun _ => 0) float32 (fun v => v) (float32 16777216) counted_var)) [[0]; [0]]) as Hch.
  { cbn. constructor; [|constructor; [|constructor]]; (split; [repeat constructor; cbn; lia|left; reflexivity]). }
  destruct (HE zs [[0]; [0]] Hch) as (r & Hr & _ & Hv). destruct (HF zs [[0]; [0]] Hch) as (r' & Hr' & _ & Hv'). rewrite Hr in Hr'. injection Hr' as <-.
  assert (position (map zlen [[0]; [0]]) [0; 0]) as Hp by (cbn; repeat constructor; lia).
  pose proof (Hv _ Hp) as E1. pose proof (Hv' _ Hp) as E2. rewrite E1 in E2. change (gather [[0]; [0]] [0; 0]) with [0; 0] in E2.
  assert (counts [0; 0] = 16777216) as K; [|discriminate K]. apply (Hn [0; 0]); [cbn; repeat constructor; cbn; lia|].
  rewrite E2. apply (HFn [0; 0]). reflexivity.
Qed.
Print Assumptions C68_rounded_refuted.

(** *** an example: obs has a NaN *)
Definition gaps (p : list Z) : num := match p with [1; 1] => NaN | [0; 2] => PInf | _ => num_of_Z (table p) end.
Definition gappy : var axis num := source [lat2; lon3] gaps.
Lemma gappy_responds : responds env0 gappy gaps.
Proof. apply source_responds. exact (proj2 (blocks_getable env0)). Qed.
Example C68_nonvacuous : env_ok env0 /\ responds env0 gappy gaps /\ (forall p, position (var_shape gappy) p -> gaps p <> num_of_Z (-1)) /\
  show (Some (fill_var env0 zs (fun v => v) (num_of_Z (-1)) gappy)) [[0; 1]; [0; 1]] [[0; 0]; [0; 1]; [1; 0]; [1; 1]] = Some ([2; 2], [Some 0; Some 1; Some 10; Some (-1 # 1)]%Q) /\
  show (Some (unfill_var env0 zs (fun v => v) (fun v => v) (num_of_Z 10) gappy)) [[0; 1]; [0; 1]] [[0; 0]; [0; 1]; [1; 0]; [1; 1]] = Some ([2; 2], [Some 0; Some 1; None; None]%Q).
Proof.
  split; [apply env0_ok|]. split; [apply gappy_responds|]. split.
  - intros p Hp E. inversion Hp as [|? i ? p1 Hi Hp1]; subst. inversion Hp1 as [|? j ? p2 Hj Hp2]; subst. inversion Hp2; subst. cbn in Hi, Hj.
    assert (i = 0 \/ i = 1) as [-> | ->] by lia; assert (j = 0 \/ j = 1 \/ j = 2) as [-> |[-> | ->]] by lia; vm_compute in E; discriminate E.
  - split; vm_compute; reflexivity.
Qed.
