(** C35, C36, C37: differences, derivatives and integrals along an axis.  [x] is any variable whose data source answers
    requests with its data [D]; the theorems say what is read from the result, whatever part of it is read ([computes]). *)
From Coq Require Import ZArith List Bool Lia QArith_base Qcanon.
From Verif Require Import SortSpec IndexModel IndexSpec IndexProofs ArrModel ArrProofs ViewModel ViewSpec ViewProofs AxisModel AxisSpec AxisProofs VarOpsModel VarOpsSpec
     ReduceModel ReduceSpec RespondProofs UfuncModel NumModel StencilModel StencilSpec StencilProofs DiffProofs DerivProofs IntgrProofs StencilLemmas ViewProps EnvExample ReduceProps.
Import ListNotations.
Open Scope Z_scope.

Lemma computed {V} env (Henv : env_ok env) (y : var axis V) E : responds env y E -> computes env y E.
Proof. intros H. split; [exact H|]. intros junk. now apply (responds_delivers env Henv junk). Qed.

(** *** C35 *)
(** diff(var, axis, n), for any kind of values: the axis loses its last n elements *)
Theorem C35_difference : forall env, env_ok env -> forall V (junk : list Z -> V) minus (x : var axis V) D d a n,
  responds env x D -> nth_error (var_axes x) d = Some a -> good_axis a -> 0 < n < axis_len a ->
  exists y b, diff_var env junk minus x d n = Some y /\
    var_axes y = set_at (var_axes x) d b /\ sliced a (arange 0 (axis_len a - n) 1) b /\
    computes env y (fun q => difference minus (Z.to_nat n) (fun i => D (moved q d i)) (nth d q 0)).
Proof.
  intros env Henv V junk minus x D d a n Hx Ha Hg Hn. destruct (diff_spec env Henv junk minus x D d a n Hx Ha Hg Hn) as (y & b & H1 & H2 & H3 & H4).
  exists y, b. repeat (split; [assumption|]). now apply computed.
Qed.
Print Assumptions C35_difference.

(** the n-th difference at i is the alternating binomial sum of the values at i .. i + n *)
Theorem C35_binomial : forall n f i,
  difference Qcminus n f i = sum_to (S n) (fun k => (of_Z (sign (n - k) * binomial n k) * f (i + Z.of_nat k)%Z)%Qc).
Proof. intros n f i. apply difference_binomial. Qed.
Print Assumptions C35_binomial.

(** too few points are rejected *)
Theorem C35_too_few : forall env V (junk : list Z -> V) minus (x : var axis V) d a n,
  nth_error (var_axes x) d = Some a -> axis_len a <= n -> diff_var env junk minus x d n = None.
Proof. intros env V junk minus x d a n Ha Hn. unfold diff_var. rewrite Ha. cbn [bind]. destruct (Z.leb_spec (axis_len a) n); [reflexivity|lia]. Qed.
Print Assumptions C35_too_few.

(** n = 0 does not give the variable itself but nothing at all: [:-0] is empty *)
Theorem C35_zero_refuted : forall env, env_ok env -> forall V (junk : list Z -> V) minus (x : var axis V) d a,
  nth_error (var_axes x) d = Some a -> good_axis a -> 0 < axis_len a ->
  exists y b, diff_var env junk minus x d 0 = Some y /\ nth_error (var_axes y) d = Some b /\ axis_len b = 0.
Proof.
  intros env Henv V junk minus x d a Ha Hg Hl. unfold diff_var. rewrite Ha. cbn [bind]. destruct (Z.leb_spec (axis_len a) 0); [lia|].
  assert (slice_index (SSlice (Slice None (Some (- 0)) None)) (axis_len a) = Some []) as ->.
  { unfold slice_index. cbn. destruct (axis_len a); [lia|reflexivity|lia]. }
  cbn [bind]. eexists. exists (axis_take env a []). split; [reflexivity|]. cbn [var_axes]. split.
  - rewrite nth_error_set_at by (apply nth_error_Some; congruence). now rewrite Nat.eqb_refl.
  - apply (take_len env Henv a [] Hg). constructor.
Qed.
Print Assumptions C35_zero_refuted.

(** *** C36 *)
(** the difference quotient between the stated neighbours *)
Theorem C36_formula : forall env, env_ok env -> forall junk (x : var axis num) D d a dx X df,
  responds env x D -> nth_error (var_axes x) d = Some a -> 1 < axis_len a -> coordinates env x d dx X ->
  exists y E, deriv_var env junk x d dx df = Some y /\ var_axes y = var_axes x /\ computes env y E /\
    forall q l r, position (var_shape x) q -> between df (axis_len a) (nth d q 0) l r ->
      E q = div (sub (D (moved q d r)) (D (moved q d l))) (sub (X (moved q d r)) (X (moved q d l))).
Proof.
  intros env Henv junk x D d a dx X df Hx Ha HN HX. destruct (deriv_spec env Henv junk x D d a dx X df Hx Ha HN HX) as (y & H1 & H2 & H3).
  eexists y, _. split; [exact H1|]. split; [exact H2|]. split; [apply computed; [exact Henv|exact H3]|]. cbv beta.
  intros q l r Hq Hb.
  assert (0 <= nth d q 0 < axis_len a) as Hi by (eapply position_at; [exact Hq|]; unfold var_shape; rewrite nth_error_map, Ha; reflexivity).
  pose proof (ends_between df (axis_len a) (nth d q 0) HN Hi) as Hb'. unfold at_points, left1, right1.
  assert (l = fst (ends1 df (axis_len a) (nth d q 0)) /\ r = snd (ends1 df (axis_len a) (nth d q 0))) as [-> ->]; [|reflexivity].
  destruct df; cbn [between] in Hb, Hb'; lia.
Qed.
Print Assumptions C36_formula.

(** data that are linear in the coordinate: the slope, at every point, boundary points included, for every stencil and every grid;
    slope and intercept may be different for different places along the other axes *)
Theorem C36_linear : forall env, env_ok env -> forall junk (x : var axis num) d a dx X slope icpt df,
  responds env x (fun q => Fin (slope q * X q + icpt q)%Qc) -> nth_error (var_axes x) d = Some a -> 1 < axis_len a ->
  coordinates env x d dx (fun q => Fin (X q)) -> distinct_along (var_shape x) d X -> steady d slope -> steady d icpt ->
  exists y E, deriv_var env junk x d dx df = Some y /\ var_axes y = var_axes x /\ computes env y E /\
    forall q, position (var_shape x) q -> E q = Fin (slope q).
Proof.
  intros env Henv junk x d a dx X slope icpt df Hx Ha HN HX Hd Hs Hc.
  destruct (C36_formula env Henv junk x _ d a dx _ df Hx Ha HN HX) as (y & E & H1 & H2 & H3 & H4). exists y, E. repeat (split; [assumption|]).
  intros q Hq.
  assert (nth_error (var_shape x) d = Some (axis_len a)) as Hsd by (unfold var_shape; rewrite nth_error_map, Ha; reflexivity).
  assert (0 <= nth d q 0 < axis_len a) as Hi by (eapply position_at; [exact Hq|exact Hsd]).
  pose proof (ends_between df (axis_len a) (nth d q 0) HN Hi) as Hb. pose proof (between_range _ _ _ _ _ HN Hi Hb) as Hr.
  rewrite (H4 q _ _ Hq Hb). rewrite !Hs, !Hc. apply slope_exact. intros K. apply Hd in K; [lia|exact Hq|apply (position_set _ _ _ _ _ Hq Hsd); lia|apply (position_set _ _ _ _ _ Hq Hsd); lia].
Qed.
Print Assumptions C36_linear.

(** quadratic data, centred stencil: exact at interior points that lie in the middle between their neighbours *)
Theorem C36_quadratic : forall env, env_ok env -> forall junk (x : var axis num) d a dx X ca cb cc,
  responds env x (fun q => Fin (ca q * X q * X q + cb q * X q + cc q)%Qc) -> nth_error (var_axes x) d = Some a -> 1 < axis_len a ->
  coordinates env x d dx (fun q => Fin (X q)) -> distinct_along (var_shape x) d X -> steady d ca -> steady d cb -> steady d cc ->
  exists y E, deriv_var env junk x d dx Centre = Some y /\ var_axes y = var_axes x /\ computes env y E /\
    forall q, position (var_shape x) q -> let i := nth d q 0 in 0 < i < axis_len a - 1 ->
      (X (moved q d (i + 1)) - X q = X q - X (moved q d (i - 1)))%Qc -> E q = Fin (ca q * X q + ca q * X q + cb q)%Qc.
Proof.
  intros env Henv junk x d a dx X ca cb cc Hx Ha HN HX Hd Hs1 Hs2 Hs3.
  destruct (C36_formula env Henv junk x _ d a dx _ Centre Hx Ha HN HX) as (y & E & H1 & H2 & H3 & H4). exists y, E. repeat (split; [assumption|]).
  intros q Hq i Hi Hu.
  assert (nth_error (var_shape x) d = Some (axis_len a)) as Hsd by (unfold var_shape; rewrite nth_error_map, Ha; reflexivity).
  rewrite (H4 q (i - 1) (i + 1) Hq) by (cbn [between]; right; right; fold i; lia). rewrite !Hs1, !Hs2, !Hs3. apply quadratic_exact; [|exact Hu].
  intros K. apply Hd in K; [lia|exact Hq|apply (position_set _ _ _ _ _ Hq Hsd); lia|apply (position_set _ _ _ _ _ Hq Hsd); lia].
Qed.
Print Assumptions C36_quadratic.

(** the second derivative, from three points, the nearest ones at the boundaries *)
Theorem C36_second_formula : forall env, env_ok env -> forall junk (x : var axis num) D d a dx X,
  responds env x D -> nth_error (var_axes x) d = Some a -> 2 < axis_len a -> coordinates env x d dx X ->
  exists y E, deriv2_var env junk x d dx = Some y /\ var_axes y = var_axes x /\ computes env y E /\
    forall q l r, position (var_shape x) q -> among (axis_len a) (nth d q 0) l r ->
      E q = second_difference (D (moved q d l)) (D q) (D (moved q d r)) (X (moved q d l)) (X q) (X (moved q d r)).
Proof.
  intros env Henv junk x D d a dx X Hx Ha HN HX. destruct (deriv2_spec env Henv junk x D d a dx X Hx Ha HN HX) as (y & H1 & H2 & H3).
  eexists y, _. split; [exact H1|]. split; [exact H2|]. split; [apply computed; [exact Henv|exact H3]|]. cbv beta zeta.
  intros q l r Hq Hb.
  assert (nth_error (var_shape x) d = Some (axis_len a)) as Hsd by (unfold var_shape; rewrite nth_error_map, Ha; reflexivity).
  assert (0 <= nth d q 0 < axis_len a) as Hi by (eapply position_at; [exact Hq|exact Hsd]).
  destruct (triple_among (axis_len a) (nth d q 0) HN Hi) as [Hb' Hce]. unfold at_points, left2, right2, centre2.
  assert (l = fst (fst (triple (axis_len a) (nth d q 0))) /\ r = snd (triple (axis_len a) (nth d q 0))) as [<- <-] by (unfold among in Hb, Hb'; lia).
  rewrite Hce. rewrite (set_at_nth q d (nth d q 0)); [reflexivity|]. apply nth_error_nth'. rewrite <- (Forall2_len _ _ _ Hq). apply nth_error_Some. congruence.
Qed.
Print Assumptions C36_second_formula.

(** it is exact for quadratic data on every grid, at every point, boundary points included *)
Theorem C36_second_quadratic : forall env, env_ok env -> forall junk (x : var axis num) d a dx X ca cb cc,
  responds env x (fun q => Fin (ca q * X q * X q + cb q * X q + cc q)%Qc) -> nth_error (var_axes x) d = Some a -> 2 < axis_len a ->
  coordinates env x d dx (fun q => Fin (X q)) -> distinct_along (var_shape x) d X -> steady d ca -> steady d cb -> steady d cc ->
  exists y E, deriv2_var env junk x d dx = Some y /\ var_axes y = var_axes x /\ computes env y E /\
    forall q, position (var_shape x) q -> E q = Fin (ca q + ca q)%Qc.
Proof.
  intros env Henv junk x d a dx X ca cb cc Hx Ha HN HX Hd Hs1 Hs2 Hs3.
  destruct (C36_second_formula env Henv junk x _ d a dx _ Hx Ha HN HX) as (y & E & H1 & H2 & H3 & H4). exists y, E. repeat (split; [assumption|]).
  intros q Hq.
  assert (nth_error (var_shape x) d = Some (axis_len a)) as Hsd by (unfold var_shape; rewrite nth_error_map, Ha; reflexivity).
  assert (0 <= nth d q 0 < axis_len a) as Hi by (eapply position_at; [exact Hq|exact Hsd]).
  destruct (triple_among (axis_len a) (nth d q 0) HN Hi) as [Hb _]. pose proof (among_range _ _ _ _ HN Hi Hb) as Hr.
  rewrite (H4 q _ _ Hq Hb). rewrite !Hs1, !Hs2, !Hs3.
  assert (moved q d (nth d q 0) = q) as Hm by (apply set_at_nth, nth_error_nth'; rewrite <- (Forall2_len _ _ _ Hq); apply nth_error_Some; congruence).
  assert (forall i j, 0 <= i < axis_len a -> 0 <= j < axis_len a -> i <> j -> X (moved q d i) <> X (moved q d j)) as Hne.
  { intros i j H H' Hij K. apply Hd in K; [lia|exact Hq|apply (position_set _ _ _ _ _ Hq Hsd); lia|apply (position_set _ _ _ _ _ Hq Hsd); lia]. }
  apply second_exact.
  - intros K. apply (Hne (fst (fst (triple (axis_len a) (nth d q 0)))) (nth d q 0)); [lia|lia|lia|]. now rewrite Hm.
  - intros K. apply (Hne (nth d q 0) (snd (triple (axis_len a) (nth d q 0)))); [lia|lia|lia|]. now rewrite Hm.
  - apply Hne; lia.
Qed.
Print Assumptions C36_second_quadratic.

(** *** C37 *)
(** the sums, for every rule, direction, coordinate and initial value; the initial value itself is at the first (the last) point *)
Theorem C37_integral : forall env, env_ok env -> forall junk (x : var axis num) D d a dx X v0 V0 back type,
  responds env x D -> nth_error (var_axes x) d = Some a -> 1 < axis_len a ->
  coordinates env x d dx X -> starts env x d v0 V0 ->
  exists y, integrate_var env junk x d dx v0 back type = Some y /\ var_axes y = var_axes x /\
    computes env y (fun q => integral back (axis_len a) (V0 q) (contribution type (fun i => D (moved q d i)) (fun i => X (moved q d i))) (nth d q 0)).
Proof.
  intros env Henv junk x D d a dx X v0 V0 back type Hx Ha HN HX HV. destruct (integrate_spec env Henv junk x D d a dx X v0 V0 back type Hx Ha HN HX HV) as (y & H1 & H2 & H3).
  exists y. repeat (split; [assumption|]). now apply computed.
Qed.
Print Assumptions C37_integral.

(** the trapezoidal rule is exact for data that are linear in the coordinate: s/2 X^2 + c X between the points *)
Theorem C37_trapz_linear : forall env, env_ok env -> forall junk (x : var axis num) d a dx X slope icpt v0 V0 back,
  responds env x (fun q => Fin (slope q * X q + icpt q)%Qc) -> nth_error (var_axes x) d = Some a -> 1 < axis_len a ->
  coordinates env x d dx (fun q => Fin (X q)) -> steady d slope -> steady d icpt -> starts env x d v0 (fun q => Fin (V0 q)) ->
  let P q := (Q2Qc (1 # 2) * slope q * X q * X q + icpt q * X q)%Qc in
  exists y E, integrate_var env junk x d dx v0 back Trapz = Some y /\ var_axes y = var_axes x /\ computes env y E /\
    forall q, position (var_shape x) q ->
      E q = Fin (V0 q + (if back then P (moved q d (axis_len a - 1)) - P q else P q - P (moved q d 0)))%Qc.
Proof.
  intros env Henv junk x d a dx X slope icpt v0 V0 back Hx Ha HN HX Hs Hc HV P.
  destruct (C37_integral env Henv junk x _ d a dx _ v0 _ back Trapz Hx Ha HN HX HV) as (y & H1 & H2 & H3).
  eexists y, _. split; [exact H1|]. split; [exact H2|]. split; [exact H3|]. cbv beta. intros q Hq.
  assert (nth_error (var_shape x) d = Some (axis_len a)) as Hsd by (unfold var_shape; rewrite nth_error_map, Ha; reflexivity).
  assert (0 <= nth d q 0 < axis_len a) as Hi by (eapply position_at; [exact Hq|exact Hsd]).
  assert (moved q d (nth d q 0) = q) as Hm by (apply set_at_nth, nth_error_nth'; rewrite <- (Forall2_len _ _ _ Hq); apply nth_error_Some; congruence).
  rewrite (integral_telescope back (axis_len a) (V0 q) _ (fun i => P (moved q d i)) (nth d q 0) Hi).
  - rewrite Hm. reflexivity.
  - intros k Hk. unfold contribution. cbv zeta. unfold P. rewrite !Hs, !Hc. apply trapz_linear.
Qed.
Print Assumptions C37_trapz_linear.

(** the rectangle rules and the trapezoidal rule are exact for data that are constant along the axis *)
Theorem C37_constant : forall env, env_ok env -> forall junk (x : var axis num) d a dx X c v0 V0 back type, type <> Cumsum ->
  responds env x (fun q => Fin (c q)) -> nth_error (var_axes x) d = Some a -> 1 < axis_len a ->
  coordinates env x d dx (fun q => Fin (X q)) -> steady d c -> starts env x d v0 (fun q => Fin (V0 q)) ->
  exists y E, integrate_var env junk x d dx v0 back type = Some y /\ var_axes y = var_axes x /\ computes env y E /\
    forall q, position (var_shape x) q ->
      E q = Fin (V0 q + c q * (if back then X (moved q d (axis_len a - 1)) - X q else X q - X (moved q d 0)))%Qc.
Proof.
  intros env Henv junk x d a dx X c v0 V0 back type Hty Hx Ha HN HX Hc HV.
  destruct (C37_integral env Henv junk x _ d a dx _ v0 _ back type Hx Ha HN HX HV) as (y & H1 & H2 & H3).
  eexists y, _. split; [exact H1|]. split; [exact H2|]. split; [exact H3|]. cbv beta. intros q Hq.
  assert (nth_error (var_shape x) d = Some (axis_len a)) as Hsd by (unfold var_shape; rewrite nth_error_map, Ha; reflexivity).
  assert (0 <= nth d q 0 < axis_len a) as Hi by (eapply position_at; [exact Hq|exact Hsd]).
  assert (moved q d (nth d q 0) = q) as Hm by (apply set_at_nth, nth_error_nth'; rewrite <- (Forall2_len _ _ _ Hq); apply nth_error_Some; congruence).
  rewrite (integral_telescope back (axis_len a) (V0 q) _ (fun i => (c q * X (moved q d i))%Qc) (nth d q 0) Hi).
  - rewrite Hm. f_equal. destruct back; ring.
  - intros k Hk. unfold contribution. cbv zeta. rewrite !Hc. destruct type; [| | |congruence].
    + pose proof (trapz_linear 0%Qc (c q) (X (moved q d k)) (X (moved q d (k + 1)))) as K. replace (0 * X (moved q d k) + c q)%Qc with (c q) in K by ring.
      replace (0 * X (moved q d (k + 1)) + c q)%Qc with (c q) in K by ring. rewrite K. f_equal. ring.
    + rewrite sub_fin. cbn [mul]. f_equal. ring.
    + rewrite sub_fin. cbn [mul]. f_equal. ring.
Qed.
Print Assumptions C37_constant.

(** *** examples, on an axis with the values 0, 5, 7 *)
Definition coord3 (q : list Z) (d : nat) : Qc := Q2Qc (nth (Z.to_nat (nth d q 0)) [0; 5; 7]%Q 0%Q).
(** 2 x 3: slopes 1 and 3 *)
Definition ramp (q : list Z) : num := Fin ((if Z.eqb (nth 0%nat q 0%Z) 0%Z then 1 else Q2Qc 3) * coord3 q 1 + Q2Qc 4)%Qc.
Definition ramps : var axis num := source [lat2; lon3] ramp.
Definition squares : var axis num := source [lon3] (fun q => Fin (1 * coord3 q 0 * coord3 q 0 + 0 * coord3 q 0 + 0)%Qc).
Lemma lon3_separate : separate [lon3].
Proof. intros [|i] [|j] a b Ha Hb Hne; cbn in Ha, Hb; try congruence; try (destruct i; discriminate); try (destruct j; discriminate). Qed.
Lemma lat2_separate : separate [lat2].
Proof. intros [|i] [|j] a b Ha Hb Hne; cbn in Ha, Hb; try congruence; try (destruct i; discriminate); try (destruct j; discriminate). Qed.
Lemma lon3_good : good_axis lon3.
Proof. pose proof field_good as H. inversion H as [|? ? _ H']; subst. inversion H'; assumption. Qed.
Lemma lon3_inside q d : position (map axis_len (if Nat.eqb d 0 then [lon3] else [lat2; lon3])) q -> (d < 2)%nat -> nth d q 0 = 0 \/ nth d q 0 = 1 \/ nth d q 0 = 2.
Proof.
  intros Hq Hd. assert (0 <= nth d q 0 < 3); [|lia]. destruct d as [|[|d]]; [| |lia]; cbn in Hq.
  - inversion Hq as [|? ? ? ? H1 _]; subst. cbn. cbn in H1. lia.
  - inversion Hq as [|? ? ? ? _ H1]; subst. inversion H1 as [|? ? ? ? H2 _]; subst. cbn. cbn in H2. lia.
Qed.
Lemma coord3_distinct d : (d < 2)%nat -> distinct_along (map axis_len (if Nat.eqb d 0 then [lon3] else [lat2; lon3])) d (fun q => coord3 q d).
Proof.
  intros Hd q i j Hq Hi Hj E.
  assert (d < length q)%nat as Hl by (rewrite <- (Forall2_len _ _ _ Hq); destruct d as [|[|]]; cbn; lia).
  pose proof (lon3_inside _ d Hi Hd) as Ki. pose proof (lon3_inside _ d Hj Hd) as Kj. unfold moved in *. rewrite nth_set_same in Ki, Kj by exact Hl.
  unfold coord3 in E. rewrite !nth_set_same in E by exact Hl.
  destruct Ki as [->|[->| ->]], Kj as [->|[->| ->]]; try reflexivity; exfalso; apply (f_equal this) in E; vm_compute in E; discriminate.
Qed.
Example C35_example : responds env0 ramps ramp /\ nth_error (var_axes ramps) 1 = Some lon3 /\ good_axis lon3 /\ 0 < 2 < axis_len lon3 /\
  show (diff_var env0 zs sub ramps 1 2) [[0; 1]; [0]] [[0; 0]; [1; 0]] = Some ([2; 1], [Some (-3)%Q; Some (-9)%Q]) /\
  show (diff_var env0 zs sub ramps 1 1) [[1]; [0; 1]] [[0; 0]; [0; 1]] = Some ([1; 2], [Some 15%Q; Some 6%Q]).
Proof.
  split; [apply source_responds; exact (proj1 field_responds)|]. split; [reflexivity|]. split; [exact lon3_good|]. split; [cbn; lia|]. split; vm_compute; reflexivity.
Qed.
Example C36_linear_example :
  responds env0 ramps (fun q => Fin ((if Z.eqb (nth 0%nat q 0%Z) 0%Z then 1 else Q2Qc 3) * coord3 q 1 + Q2Qc 4)%Qc) /\
  coordinates env0 ramps 1 None (fun q => Fin (coord3 q 1)) /\ distinct_along (var_shape ramps) 1 (fun q => coord3 q 1) /\
  steady 1 (fun q => (if Z.eqb (nth 0%nat q 0%Z) 0%Z then 1 else Q2Qc 3)%Qc) /\
  show (deriv_var env0 zs ramps 1 None Left) [[0; 1]; [0; 2]] [[0; 0]; [0; 1]; [1; 0]; [1; 1]] = Some ([2; 2], [Some 1%Q; Some 1%Q; Some 3%Q; Some 3%Q]).
Proof.
  split; [apply source_responds; exact (proj1 field_responds)|]. split. { intros a q Ha. injection Ha as <-. reflexivity. }
  split; [exact (coord3_distinct 1 ltac:(lia))|]. split. { intros [|z [|z' q]] i; reflexivity. } vm_compute; reflexivity.
Qed.
Example C36_quadratic_example :
  responds env0 squares (fun q => Fin (1 * coord3 q 0 * coord3 q 0 + 0 * coord3 q 0 + 0)%Qc) /\
  coordinates env0 squares 0 None (fun q => Fin (coord3 q 0)) /\ distinct_along (var_shape squares) 0 (fun q => coord3 q 0) /\
  show (deriv2_var env0 zs squares 0 None) [[0; 1; 2]] [[0]; [1]; [2]] = Some ([3], [Some 2%Q; Some 2%Q; Some 2%Q]).
Proof.
  split; [apply source_responds; exact lon3_separate|]. split. { intros a q Ha. injection Ha as <-. reflexivity. }
  split; [exact (coord3_distinct 0 ltac:(lia))|]. vm_compute; reflexivity.
Qed.
(** where a point is not in the middle between its neighbours, the centred derivative of a quadratic is not exact:
    7 instead of 10 at the point 5 of the grid 0, 5, 7 *)
Theorem C36_uneven_refuted :
  responds env0 squares (fun q => Fin (1 * coord3 q 0 * coord3 q 0 + 0 * coord3 q 0 + 0)%Qc) /\
  show (deriv_var env0 zs squares 0 None Centre) [[1]] [[0]] = Some ([1], [Some 7%Q]) /\
  this (1 * coord3 [1%Z] 0 + 1 * coord3 [1%Z] 0 + 0)%Qc = 10%Q.
Proof. split; [apply source_responds; exact lon3_separate|]. split; vm_compute; reflexivity. Qed.
Print Assumptions C36_uneven_refuted.
(** with two points, which the constructor accepts, the second derivative cannot be read *)
Theorem C36_second_two_points_refuted : exists x D y, responds env0 x D /\ var_shape x = [2] /\
  deriv2_var env0 zs x 0 None = Some y /\ var_get env0 zs y = None.
Proof.
  exists (source [lat2] (fun q => num_of_Z (nth 0 q 0))). eexists _, _. split; [apply source_responds; exact lat2_separate|]. split; [reflexivity|].
  split; [reflexivity|]. vm_compute. reflexivity.
Qed.
Print Assumptions C36_second_two_points_refuted.
Example C37_example :
  coordinates env0 ramps 1 None (fun q => Fin (coord3 q 1)) /\
  starts env0 ramps 1 (Some (AVar (source [lat2] (fun q => num_of_Z (100 * nth 0 q 0))))) (fun q => num_of_Z (100 * nth 0 q 0)) /\
  show (integrate_var env0 zs ramps 1 None (Some (AVar (source [lat2] (fun q => num_of_Z (100 * nth 0 q 0))))) false Trapz) [[0; 1]; [0; 1; 2]]
    [[0; 0]; [0; 1]; [0; 2]; [1; 0]; [1; 1]; [1; 2]] = Some ([2; 3], [Some 0%Q; Some (65 # 2)%Q; Some (105 # 2)%Q; Some 100%Q; Some (315 # 2)%Q; Some (403 # 2)%Q]) /\
  show (integrate_var env0 zs ramps 1 None None true Rectl) [[0]; [0; 2]] [[0; 0]; [0; 1]] = Some ([1; 2], [Some 38%Q; Some 0%Q]).
Proof.
  split. { intros a q Ha. injection Ha as <-. reflexivity. }
  split. { exists [0%nat]. eexists. split; [apply source_responds; exact lat2_separate|]. split; [repeat constructor; intros []|]. split; [intros [|[]]; discriminate|].
    split; [repeat constructor|]. intros [|z q]; reflexivity. }
  split; vm_compute; reflexivity.
Qed.
(** cumsum does not, as documented, do what numpy's does: the first element is missing from all the sums *)
Theorem C37_cumsum_refuted : exists x D, responds env0 x D /\
  show (Some x) [[0; 1; 2]] [[0]; [1]; [2]] = Some ([3], [Some 1%Q; Some 2%Q; Some 4%Q]) /\
  show (integrate_var env0 zs x 0 None None false Cumsum) [[0; 1; 2]] [[0]; [1]; [2]] = Some ([3], [Some 0%Q; Some 2%Q; Some 6%Q]).
Proof.
  exists (source [lon3] (fun q => num_of_Z (2 ^ nth 0 q 0))). eexists. split; [apply source_responds; exact lon3_separate|]. split; vm_compute; reflexivity.
Qed.
Print Assumptions C37_cumsum_refuted.
