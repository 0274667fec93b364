(** C48: multiple regression. *)
From Coq Require Import ZArith List Bool Lia QArith_base Qcanon Field Qreduction.
From Verif Require Import SortSpec IndexModel IndexSpec IndexProofs ArrModel ArrProofs ViewModel ViewSpec ViewProofs
     AxisModel AxisSpec AxisProofs VarOpsModel VarOpsSpec VarOpsProofs NumModel NumProofs ReduceModel ReduceSpec ReduceProofs StatProofs RespondProofs
     StencilSpec UfuncModel UfuncSpec UfuncProofs UfuncView RegressModel RegressSpec RegressAxes MultiModel MultiSpec MultiLeast MultiSums MultiProofs MultiPlace.
From Verif Require Import EnvExample ViewProps ReduceProps.
From Verif Require UfuncProps StencilProps InterpProps RegressProps InterpView.
Import ListNotations.
Open Scope Z_scope.
Open Scope list_scope.

(** what multiple_regress needs: variables that can be read, axes that fit together, finite data, and regressors that have all dimensions regressed over *)
Definition regressable (env : axenv) (Xs : list (var axis num)) (Y : var axis num) (DXs : list (list Z -> num)) (DY : list Z -> num) (axes : option (list nat)) : Prop :=
  Xs <> [] /\ Forall2 (responds env) Xs DXs /\ responds env Y DY /\ fitting_all (Xs ++ [Y]) /\ Forall2 all_finite Xs DXs /\ all_finite Y DY /\
  (forall l, axes = Some l -> NoDup l) /\
  forall outer over, divides env Xs Y axes outer over -> forall x b, In x Xs -> In b over -> along_dimension x b.
(** the axes of the regressors can be added to those of the result *)
Definition extra_axes (env : axenv) (Xs : list (var axis num)) (Y : var axis num) (axes : option (list nat)) (extra : list axis) : Prop :=
  Forall (fun a => axis_len a = Z.of_nat (length Xs)) extra /\ forall outer over, divides env Xs Y axes outer over -> separate (outer ++ extra).

Lemma stored_ok env (Henv : env_ok env) {V} (axes : list axis) (a : arr V) : separate axes -> shape a = map axis_len axes ->
  exists y, stored axes a = Some y /\ var_axes y = axes /\ computes env y (val a).
Proof.
  intros Hs E. unfold stored. destruct (list_eq_dec Z.eq_dec (shape a) (map axis_len axes)) as [_|K]; [|contradiction]. exists (Var axes (Values a)). split; [reflexivity|]. split; [reflexivity|].
  apply (StencilProps.computed env Henv). now apply RegressProps.stored_responds.
Qed.
Lemma extra_shape (outer extra : list axis) n (a : arr mfit) : shape a = map axis_len outer -> Forall (fun a => axis_len a = n) extra -> shape a ++ repeat n (length extra) = map axis_len (outer ++ extra).
Proof. intros -> H. rewrite map_app. f_equal. induction H as [|b l E _ IH]; cbn; [reflexivity|]. now rewrite E, IH. Qed.
Lemma last_snoc {A} (l : list A) (x d : A) : last (l ++ [x]) d = x.
Proof. apply last_last. Qed.

Section Props.
Context (env : axenv) (Henv : env_ok env) (junk : list Z -> num) (MAX : Z) (HMAX : 1 <= MAX) (sqrt : num -> num) (cdf : num -> num -> num) (inv : list (list num) -> option (list (list num)))
  (Xs : list (var axis num)) (Hinv : inverts (length Xs) inv) (Y : var axis num) (DXs : list (list Z -> num)) (DY : list Z -> num) (axes : option (list nat)) (HR : regressable env Xs Y DXs DY axes) (N_fac : option Z).
Notation n := (length Xs).
Lemma fit_all :
  match multi_fit env junk MAX sqrt cdf inv Xs Y axes N_fac with
  | Some (outer, a) => exists over, divides env Xs Y axes outer over /\ over <> [] /\ separate outer /\ shape a = map axis_len outer /\
      forall k, position (map axis_len outer) k -> exists l, observed Xs Y DXs DY outer over k l /\ multi_result sqrt cdf n N_fac l (val a k)
  | None => unshared env Xs Y axes \/ (exists outer, divides env Xs Y axes outer []) \/
      exists outer over k l, divides env Xs Y axes outer over /\ position (map axis_len outer) k /\ observed Xs Y DXs DY outer over k l /\ dependent n l
  end.
Proof.
  destruct HR as (H1 & H2 & H3 & H4 & H5 & H6 & H7 & H8). now apply multi_fit_spec.
Qed.
End Props.

(** *** C48 *)
(** the coefficients: the only ones with the least sum of squares *)
Theorem C48_coefficients : forall env, env_ok env -> forall junk MAX, 1 <= MAX -> forall sqrt cdf inv Xs, inverts (length Xs) inv -> forall Y DXs DY axes,
  regressable env Xs Y DXs DY axes -> forall N_fac ra, extra_axes env Xs Y axes [ra] ->
  match multi_beta env junk MAX sqrt cdf inv ra Xs Y axes N_fac with
  | Some y => exists outer over E, var_axes y = outer ++ [ra] /\ divides env Xs Y axes outer over /\ over <> [] /\ computes env y E /\
      forall k, position (map axis_len outer) k -> exists l bs, observed Xs Y DXs DY outer over k l /\ best_fit l bs /\ length bs = length Xs /\
        forall i, (i < length Xs)%nat -> E (k ++ [Z.of_nat i]) = Fin (nth i bs (Q2Qc 0))
  | None => unshared env Xs Y axes \/ (exists outer, divides env Xs Y axes outer []) \/
      exists outer over k l, divides env Xs Y axes outer over /\ position (map axis_len outer) k /\ observed Xs Y DXs DY outer over k l /\ dependent (length Xs) l
  end.
Proof.
  intros env Henv junk MAX HMAX sqrt cdf inv Xs Hinv Y DXs DY axes HR N_fac ra [Hra Hsep].
  pose proof (fit_all env Henv junk MAX HMAX sqrt cdf inv Xs Hinv Y DXs DY axes HR N_fac) as K. unfold multi_beta. destruct (multi_fit _ _ _ _ _ _ _ _ _ _) as [[outer a]|]; [|exact K].
  destruct K as (over & K1 & K2 & K3 & K4 & K5).
  destruct (stored_ok env Henv (outer ++ [ra]) (stack_last (length Xs) a m_beta) (Hsep _ _ K1) (extra_shape outer [ra] _ a K4 Hra)) as (y & Ey & Ea & Hy). rewrite Ey.
  exists outer, over, (val (stack_last (length Xs) a m_beta)). split; [exact Ea|]. split; [exact K1|]. split; [exact K2|]. split; [exact Hy|].
  intros k Hk. destruct (K5 k Hk) as (l & L1 & bs & w & L2 & L3 & _ & E & _). exists l, bs. split; [exact L1|]. split; [exact L2|]. split; [exact L3|].
  intros i Hi. cbn [stack_last val]. rewrite last_snoc, removelast_last, E, Nat2Z.id. apply nth_map_fin. lia.
Qed.
Print Assumptions C48_coefficients.

(** the other results, for the same observations *)
Theorem C48_statistics : forall env, env_ok env -> forall junk MAX, 1 <= MAX -> forall sqrt cdf inv Xs, inverts (length Xs) inv -> forall Y DXs DY axes,
  regressable env Xs Y DXs DY axes -> forall N_fac ra ra2, extra_axes env Xs Y axes [ra; ra2] -> extra_axes env Xs Y axes [ra] ->
  forall y, multi_beta env junk MAX sqrt cdf inv ra Xs Y axes N_fac = Some y ->
  exists outer over F yr ys yc Ec, divides env Xs Y axes outer over /\ over <> [] /\
    multi_r2 env junk MAX sqrt cdf inv Xs Y axes N_fac = Some yr /\ var_axes yr = outer /\ computes env yr (fun k => m_r2 (F k)) /\
    multi_se env junk MAX sqrt cdf inv Xs Y axes N_fac = Some ys /\ var_axes ys = outer /\ computes env ys (fun k => m_se (F k)) /\
    multi_covb env junk MAX sqrt cdf inv ra ra2 Xs Y axes N_fac = Some yc /\ var_axes yc = outer ++ [ra; ra2] /\ computes env yc Ec /\
    forall k, position (map axis_len outer) k ->
      (exists l, observed Xs Y DXs DY outer over k l /\ multi_result sqrt cdf (length Xs) N_fac l (F k)) /\
      forall i j, (i < length Xs)%nat -> (j < length Xs)%nat -> Ec (k ++ [Z.of_nat i; Z.of_nat j]) = nth j (nth i (m_covb (F k)) []) NaN.
Proof.
  intros env Henv junk MAX HMAX sqrt cdf inv Xs Hinv Y DXs DY axes HR N_fac ra ra2 [Hra Hsep] _ y Ey.
  pose proof (fit_all env Henv junk MAX HMAX sqrt cdf inv Xs Hinv Y DXs DY axes HR N_fac) as K. unfold multi_beta, multi_r2, multi_se, multi_covb in *.
  destruct (multi_fit _ _ _ _ _ _ _ _ _ _) as [[outer a]|]; [|discriminate]. clear Ey y. destruct K as (over & K1 & K2 & K3 & K4 & K5).
  destruct (stored_ok env Henv outer (map_arr m_r2 a) K3 K4) as (yr & Er & Ar & Hr). destruct (stored_ok env Henv outer (map_arr m_se a) K3 K4) as (ys & Es & As & Hs).
  match goal with |- context [stored (outer ++ [ra; ra2]) ?c] => destruct (stored_ok env Henv (outer ++ [ra; ra2]) c (Hsep _ _ K1) (extra_shape outer [ra; ra2] _ a K4 Hra)) as (yc & Ec & Ac & Hc) end.
  exists outer, over, (val a), yr, ys, yc. eexists. split; [exact K1|]. split; [exact K2|]. split; [exact Er|]. split; [exact Ar|]. split; [exact Hr|]. split; [exact Es|]. split; [exact As|]. split; [exact Hs|].
  split; [exact Ec|]. split; [exact Ac|]. split; [exact Hc|]. intros k Hk. split; [exact (K5 k Hk)|]. intros i j Hi Hj. cbn [val].
  change (k ++ [Z.of_nat i; Z.of_nat j]) with (k ++ [Z.of_nat i] ++ [Z.of_nat j]). rewrite app_assoc. now rewrite last_snoc, removelast_last, last_snoc, removelast_last, !Nat2Z.id.
Qed.
Print Assumptions C48_statistics.

(** p-values and standard errors of the coefficients, if the result has at most one axis *)
Theorem C48_uncertainties_partial : forall env, env_ok env -> forall junk MAX, 1 <= MAX -> forall sqrt cdf inv Xs, inverts (length Xs) inv -> forall Y DXs DY axes,
  regressable env Xs Y DXs DY axes -> forall N_fac ra, extra_axes env Xs Y axes [ra] -> (forall outer over, divides env Xs Y axes outer over -> (length outer <= 1)%nat) ->
  forall y, multi_beta env junk MAX sqrt cdf inv ra Xs Y axes N_fac = Some y ->
  exists outer over F yp ys Ep Es, divides env Xs Y axes outer over /\ over <> [] /\
    multi_p env junk MAX sqrt cdf inv ra Xs Y axes N_fac = Some yp /\ var_axes yp = outer ++ [ra] /\ computes env yp Ep /\
    multi_sb env junk MAX sqrt cdf inv ra Xs Y axes N_fac = Some ys /\ var_axes ys = outer ++ [ra] /\ computes env ys Es /\
    forall k, position (map axis_len outer) k ->
      (exists l, observed Xs Y DXs DY outer over k l /\ multi_result sqrt cdf (length Xs) N_fac l (F k)) /\
      forall i, (i < length Xs)%nat -> Ep (k ++ [Z.of_nat i]) = nth i (m_p (F k)) NaN /\ Es (k ++ [Z.of_nat i]) = nth i (m_sb (F k)) NaN.
Proof.
  intros env Henv junk MAX HMAX sqrt cdf inv Xs Hinv Y DXs DY axes HR N_fac ra [Hra Hsep] Hone y Ey.
  pose proof (fit_all env Henv junk MAX HMAX sqrt cdf inv Xs Hinv Y DXs DY axes HR N_fac) as K. unfold multi_beta, multi_p, multi_sb, multi_transposed in *.
  destruct (multi_fit _ _ _ _ _ _ _ _ _ _) as [[outer a]|]; [|discriminate]. clear Ey y. destruct K as (over & K1 & K2 & K3 & K4 & K5). specialize (Hone _ _ K1). specialize (Hsep _ _ K1).
  inversion Hra as [|? ? Hl _]; subst.
  assert (forall f, exists t, transpose (stack_first (length Xs) a f) (length outer :: seq 0 (length outer)) = Some t /\ shape t = map axis_len (outer ++ [ra]) /\
    forall k i, position (map axis_len outer) k -> val t (k ++ [Z.of_nat i]) = nth i (f (val a k)) NaN) as T.
  { intros f. destruct outer as [|b [|c outer]]; [| |cbn in Hone; lia].
    - eexists. split; [unfold transpose, stack_first; cbn [shape length seq]; rewrite K4; cbn [map length seq]; reflexivity|]. cbn [shape val map app]. split; [cbn; now rewrite Hl|].
      intros k i Hk. inversion Hk; subst. cbn. now rewrite Nat2Z.id.
    - eexists. split; [unfold transpose, stack_first; cbn [shape length seq]; rewrite K4; cbn [map length seq]; reflexivity|]. cbn [shape val map app]. split; [cbn; now rewrite Hl|].
      intros k i Hk. inversion Hk as [|? p ? k' Hp Hk']; subst. inversion Hk'; subst. cbn. now rewrite Nat2Z.id. }
  destruct (T m_p) as (tp & Etp & Hsp & Hvp). destruct (T m_sb) as (ts & Ets & Hss & Hvs). rewrite Etp, Ets.
  destruct (stored_ok env Henv (outer ++ [ra]) tp Hsep Hsp) as (yp & Ep & Ap & Hp). destruct (stored_ok env Henv (outer ++ [ra]) ts Hsep Hss) as (ys & Es & As & Hs).
  exists outer, over, (val a), yp, ys, (val tp), (val ts). split; [exact K1|]. split; [exact K2|]. split; [exact Ep|]. split; [exact Ap|]. split; [exact Hp|]. split; [exact Es|]. split; [exact As|]. split; [exact Hs|].
  intros k Hk. split; [exact (K5 k Hk)|]. intros i Hi. split; [now apply Hvp|now apply Hvs].
Qed.
Print Assumptions C48_uncertainties_partial.

(** with more axes, they cannot be returned if the first and the last axis differ in length ... *)
Theorem C48_transposed_refuted : forall env, env_ok env -> forall junk MAX, 1 <= MAX -> forall sqrt cdf inv Xs, inverts (length Xs) inv -> forall Y DXs DY axes,
  regressable env Xs Y DXs DY axes -> forall N_fac ra, (forall outer over, divides env Xs Y axes outer over -> exists a mid b, outer = a :: mid ++ [b] /\ axis_len a <> axis_len b) ->
  multi_p env junk MAX sqrt cdf inv ra Xs Y axes N_fac = None /\ multi_sb env junk MAX sqrt cdf inv ra Xs Y axes N_fac = None.
Proof.
  intros env Henv junk MAX HMAX sqrt cdf inv Xs Hinv Y DXs DY axes HR N_fac ra Hout.
  pose proof (fit_all env Henv junk MAX HMAX sqrt cdf inv Xs Hinv Y DXs DY axes HR N_fac) as K. unfold multi_p, multi_sb, multi_transposed in *.
  destruct (multi_fit _ _ _ _ _ _ _ _ _ _) as [[outer a]|]; [|now split]. destruct K as (over & K1 & K2 & K3 & K4 & K5). destruct (Hout _ _ K1) as (b & mid & c & -> & Hne).
  assert (forall f, match transpose (stack_first (length Xs) a f) (length (b :: mid ++ [c]) :: seq 0 (length (b :: mid ++ [c]))) with Some t => stored ((b :: mid ++ [c]) ++ [ra]) t | None => None end = None) as T.
  { intros f. unfold transpose. cbn [stack_first shape]. destruct (is_perm _ _); [|reflexivity]. unfold stored. destruct (list_eq_dec _ _ _) as [E|_]; [|reflexivity]. exfalso. cbn [shape map app] in E. injection E as E _.
    apply Hne. rewrite <- E, K4. cbn [length nth map]. rewrite map_app, app_length. cbn [map length nth]. rewrite Nat.add_1_r. cbn [nth]. rewrite app_nth2 by (rewrite map_length; lia). rewrite map_length, Nat.sub_diag. reflexivity. }
  split; apply T.
Qed.
Print Assumptions C48_transposed_refuted.
(** ... and if two axes are as long as there are regressors, they are returned at the wrong positions: at ([i], [j]), regressor [r], stand those of regressor [j] at ([r], [i]) *)
Theorem C48_misplaced_refuted : forall env, env_ok env -> forall junk MAX, 1 <= MAX -> forall sqrt cdf inv Xs, inverts (length Xs) inv -> forall Y DXs DY axes,
  regressable env Xs Y DXs DY axes -> forall N_fac ra, extra_axes env Xs Y axes [ra] ->
  (forall outer over, divides env Xs Y axes outer over -> exists a b, outer = [a; b] /\ axis_len a = Z.of_nat (length Xs) /\ axis_len b = Z.of_nat (length Xs)) ->
  forall y, multi_beta env junk MAX sqrt cdf inv ra Xs Y axes N_fac = Some y ->
  exists outer over F yp Ep, divides env Xs Y axes outer over /\ multi_p env junk MAX sqrt cdf inv ra Xs Y axes N_fac = Some yp /\ var_axes yp = outer ++ [ra] /\ computes env yp Ep /\
    (forall k, position (map axis_len outer) k -> exists l, observed Xs Y DXs DY outer over k l /\ multi_result sqrt cdf (length Xs) N_fac l (F k)) /\
    forall i j r, Ep [i; j; r] = nth (Z.to_nat j) (m_p (F [r; i])) NaN.
Proof.
  intros env Henv junk MAX HMAX sqrt cdf inv Xs Hinv Y DXs DY axes HR N_fac ra [Hra Hsep] Hout y Ey.
  pose proof (fit_all env Henv junk MAX HMAX sqrt cdf inv Xs Hinv Y DXs DY axes HR N_fac) as K. unfold multi_beta, multi_p, multi_transposed in *.
  destruct (multi_fit _ _ _ _ _ _ _ _ _ _) as [[outer a]|]; [|discriminate]. clear Ey y. destruct K as (over & K1 & K2 & K3 & K4 & K5). destruct (Hout _ _ K1) as (b & c & -> & Lb & Lc). specialize (Hsep _ _ K1).
  inversion Hra as [|? ? Hl _]; subst.
  assert (exists t, transpose (stack_first (length Xs) a m_p) [2; 0; 1]%nat = Some t /\ shape t = map axis_len ([b; c] ++ [ra]) /\ forall i j r, val t [i; j; r] = nth (Z.to_nat j) (m_p (val a [r; i])) NaN) as (t & Et & Hs & Hv).
  { eexists. split; [unfold transpose, stack_first; cbn [shape length seq]; rewrite K4; cbn [map length seq]; reflexivity|]. cbn [shape val map app]. split; [cbn; now rewrite Hl, Lb, Lc|].
    intros i j r. reflexivity. }
  cbn [length seq]. rewrite Et. destruct (stored_ok env Henv ([b; c] ++ [ra]) t Hsep Hs) as (yp & Ep & Ap & Hp).
  exists [b; c], over, (val a), yp, (val t). split; [exact K1|]. split; [exact Ep|]. split; [exact Ap|]. split; [exact Hp|]. split; [exact K5|exact Hv].
Qed.
Print Assumptions C48_misplaced_refuted.

(** ** examples *)
Definition inv2 (m : list (list num)) : option (list (list num)) :=
  match m with
  | [[Fin a; Fin b]; [Fin c; Fin d]] =>
      let det := (a * d - b * c)%Qc in
      if Qc_eq_dec det (Q2Qc 0) then None else Some [[Fin (d / det)%Qc; Fin (- b / det)%Qc]; [Fin (- c / det)%Qc; Fin (a / det)%Qc]]
  | _ => None
  end.
Lemma dot2 a b x y : dot [a; b] [x; y] = (a * x + b * y)%Qc.
Proof. unfold dot. cbn [combine map]. unfold total. cbn [fold_right]. ring. Qed.
Lemma inv2_inverts : inverts 2 inv2.
Proof.
  intros m [Hl Hr]. destruct m as [|r0 [|r1 [|]]]; try discriminate. inversion Hr as [|? ? H0 Hr']; subst. inversion Hr' as [|? ? H1 _]; subst.
  destruct r0 as [|a [|b [|]]]; try discriminate. destruct r1 as [|c [|d [|]]]; try discriminate. cbn [map inv2]. destruct (Qc_eq_dec (a * d - b * c)%Qc (Q2Qc 0)) as [E|E].
  - destruct (Qc_eq_dec a (Q2Qc 0)) as [->|Ha]; [destruct (Qc_eq_dec b (Q2Qc 0)) as [->|Hb]; [destruct (Qc_eq_dec c (Q2Qc 0)) as [->|Hc]|]|].
    + exists [Q2Qc 1; Q2Qc 0]. split; [reflexivity|]. split; [exists (Q2Qc 1); split; [now left|discriminate]|]. repeat constructor; rewrite dot2; ring.
    + exists [(- d)%Qc; c]. split; [reflexivity|]. split; [exists c; split; [right; now left|exact Hc]|]. repeat constructor; rewrite dot2; ring.
    + exists [(- b)%Qc; Q2Qc 0]. split; [reflexivity|]. split; [exists (- b)%Qc; split; [now left|intros K; apply Hb; rewrite <- (Qcopp_involutive b), K; reflexivity]|].
      repeat constructor; rewrite dot2; [ring|]. transitivity (Q2Qc 0 * d - b * c)%Qc; [ring|exact E].
    + exists [(- b)%Qc; a]. split; [reflexivity|]. split; [exists a; split; [right; now left|exact Ha]|]. repeat constructor; rewrite dot2; [ring|]. transitivity (a * d - b * c)%Qc; [ring|exact E].
  - exists [[d / (a * d - b * c); - b / (a * d - b * c)]; [- c / (a * d - b * c); a / (a * d - b * c)]]%Qc. split; [reflexivity|]. split; [split; [reflexivity|repeat constructor]|].
    intros v Hv. destruct v as [|x [|y [|]]]; try discriminate. unfold times_vector. cbn [map]. rewrite !dot2. split; (f_equal; [field; exact E|f_equal; field; exact E]).
Qed.
Definition slope_data (q : list Z) : num := match q with [0] => num_of_Z 1 | [1] => num_of_Z 2 | _ => num_of_Z 4 end.
Definition one_data (q : list Z) : num := num_of_Z 1.
Definition two_lines (q : list Z) : num := match q with [0; 0] => num_of_Z 3 | [0; 1] => num_of_Z 5 | [0; _] => num_of_Z 9 | [_; 0] => num_of_Z 2 | _ => num_of_Z 0 end.
Definition lev2 : axis := Coord (MkCoord Plain [7] 1 [10; 20]%Q [] [] (1 # 100000)).
Definition climb : var axis num := source [lon3] slope_data.
Definition ones : var axis num := source [lon3] one_data.
Definition lines : var axis num := source [lat2; lon3] two_lines.
Lemma example_regressable : regressable env0 [climb; ones] lines [slope_data; one_data] two_lines None.
Proof.
  split; [discriminate|]. split; [repeat constructor; try apply StencilProps.lon3_separate; intros inds Hi; eexists; (split; [reflexivity|]; split; reflexivity)|].
  split; [apply source_responds; exact (proj1 field_responds)|]. split.
  { pose proof (RegressProps.lat2_lon3_fit climb lines) as H. destruct H as [H1 H2]; [intros a [<-|[<-|[<-|[]]]]; cbn; auto|]. cbn [var_axes climb lines source app] in *. split.
    - intros a Ha. apply H1. cbn in Ha |- *. intuition auto.
    - intros a b Ha Hb. apply H2; cbn in Ha, Hb |- *; intuition auto. }
  split; [repeat constructor; intros q _; unfold slope_data, one_data; [destruct q as [|[|[[]|[]|]|] [|]]; eexists; reflexivity|eexists; reflexivity]|].
  split; [intros q _; destruct q as [|[|[[]|[]|]|] [|[|[[]|[]|]|] [|]]]; eexists; reflexivity|]. split; [discriminate|].
  intros outer over (XA & EX & (src & Es & Hs & Hin & Hb & Hall)) x b Hx Hov. assert (XA = [lon3]) as ->.
  { revert EX. replace (combine_axes env0 (map var_axes [climb; ones])) with (Some [lon3]) by (vm_compute; reflexivity). congruence. }
  destruct (Hb b Hov) as [(a & l & Ha & Hl) _]. exists a, l. split; [|exact Hl]. destruct Hx as [<-|[<-|[]]]; exact Ha.
Qed.
Lemma example_extra : extra_axes env0 [climb; ones] lines None [lev2].
Proof.
  split; [repeat constructor|]. intros outer over (XA & EX & (src & Es & Hs & Hin & _)). assert (XA = [lon3]) as ->.
  { revert EX. replace (combine_axes env0 (map var_axes [climb; ones])) with (Some [lon3]) by (vm_compute; reflexivity). congruence. }
  assert (src = [lat2; lon3]) as ->.
  { revert Es. replace (combine_axes env0 [var_axes (grid [lon3]); var_axes lines]) with (Some [lat2; lon3]) by (vm_compute; reflexivity). congruence. }
  apply separate_snoc; [exact (RegressProps.separate_outer _ _ Hs)|]. intros b Hb. destruct (proj2 (Hin b) (or_introl Hb)) as [<-|[<-|[]]]; split; reflexivity.
Qed.
Definition shown (y : option (var axis num)) (ps : list (list Z)) : option (list axis * list (option Q)) :=
  match y with Some y => option_map (fun r => (var_axes y, map (fun p => number (val r p)) ps)) (var_get env0 zs y) | None => None end.
Example C48_example :
  env_ok env0 /\ inverts 2 inv2 /\ regressable env0 [climb; ones] lines [slope_data; one_data] two_lines None /\ extra_axes env0 [climb; ones] lines None [lev2] /\
  shown (multi_beta env0 zs 2 RegressProps.id_root RegressProps.first_arg inv2 lev2 [climb; ones] lines None None) [[0; 0]; [0; 1]; [1; 0]; [1; 1]] =
    Some ([lat2; lev2], [Some 2; Some 1; Some (-4 # 7); Some 2]%Q) /\
  shown (multi_r2 env0 zs 2 RegressProps.id_root RegressProps.first_arg inv2 [climb; ones] lines None None) [[0]; [1]] = Some ([lat2], [Some 1; Some (4 # 7)]%Q) /\
  multi_p env0 zs 2 RegressProps.id_root RegressProps.first_arg inv2 lev2 [climb; ones] lines None None <> None /\
  multi_beta env0 zs 2 RegressProps.id_root RegressProps.first_arg inv2 lev2 [climb; climb] lines None None = None.
Proof.
  split; [exact env0_ok|]. split; [exact inv2_inverts|]. split; [exact example_regressable|]. split; [exact example_extra|]. split; [vm_compute; reflexivity|]. split; [vm_compute; reflexivity|].
  split; [intros E; apply (f_equal (fun o => match o with Some _ => true | None => false end)) in E; vm_compute in E; discriminate|vm_compute; reflexivity].
Qed.

(** a regressor without the dimension regressed over, such as a constant: the result is not the best fit *)
Definition constant : var axis num := source [] one_data.
Definition straight (q : list Z) : num := match q with [0] => num_of_Z 3 | [1] => num_of_Z 5 | _ => num_of_Z 9 end.
Definition line_obs : list observation := [([Q2Qc 1; Q2Qc 1], Q2Qc 3); ([Q2Qc 2; Q2Qc 1], Q2Qc 5); ([Q2Qc 4; Q2Qc 1], Q2Qc 9)].
Theorem C48_missing_axis_refuted : exists Xs Y DXs DY over l, length Xs = 2%nat /\
  Forall2 (responds env0) Xs DXs /\ responds env0 Y DY /\ fitting_all (Xs ++ [Y]) /\ Forall2 all_finite Xs DXs /\ all_finite Y DY /\
  divides env0 Xs Y None [] over /\ observed Xs Y DXs DY [] over [] l /\ best_fit l [Q2Qc 2; Q2Qc 1] /\
  forall sqrt cdf ra, axis_len ra = 2 -> exists y, multi_beta env0 zs 100 sqrt cdf inv2 ra Xs Y None None = Some y /\ var_axes y = [ra] /\
    exists a, var_source y = Values a /\ val a [0] = Fin (Q2Qc (5 # 2)) /\ val a [1] = Fin (Q2Qc (-1 # 2)).
Proof.
  exists [climb; constant], (source [lon3] straight), [slope_data; one_data], straight, [lon3], line_obs. split; [reflexivity|].
  assert (separate (@nil axis)) as Hnil by (intros [|i] j a b Ha; discriminate).
  split; [constructor; [apply source_responds, StencilProps.lon3_separate|constructor; [apply source_responds, Hnil|constructor]]|].
  split; [apply source_responds, StencilProps.lon3_separate|].
  assert (fitting climb climb) as [Hf1 Hf2] by (apply RegressProps.lat2_lon3_fit; intros a [<-|[<-|[]]]; cbn; auto).
  split. { split; [intros a Ha; apply Hf1; exact Ha|intros a b Ha Hb; apply Hf2; assumption]. }
  split; [repeat constructor; intros q _; unfold slope_data, one_data; [destruct q as [|[|[[]|[]|]|] [|]]; eexists; reflexivity|eexists; reflexivity]|].
  split; [intros q _; destruct q as [|[|[[]|[]|]|] [|]]; eexists; reflexivity|].
  assert (along_dimension climb lon3) as Hal by (exists lon3; eexists; split; [now left|apply restricts_refl; apply (Hf1 lon3); now left]).
  split. { exists [lon3]. split; [vm_compute; reflexivity|]. exists [lon3]. split; [vm_compute; reflexivity|]. split; [exact StencilProps.lon3_separate|].
    split; [intros b; split; [now right|intros [[]|H]; exact H]|]. split; [|now intros]. intros b [<-|[]]. split; exact Hal. }
  split.
  { unfold observed, line_obs. assert (forall D (x : var axis num) r v, x = source [lon3] D -> position [3] [r] -> D [r] = v -> value_there x D ([] ++ [lon3]) ([] ++ [r]) v) as Hv.
    { intros D x r v -> Hr <-. exists [r]. split; [exact Hr|]. split; [|reflexivity]. constructor; [|constructor]. exists 0%nat, lon3, (arange 0 3 1), r. split; [reflexivity|]. split; [apply restricts_refl; apply (Hf1 lon3); now left|]. split; [reflexivity|].
      inversion Hr as [|? ? ? ? Hr0 _]; subst. apply elem_arange01. lia. }
    assert (forall p, value_there constant one_data ([] ++ [lon3]) p (Fin (Q2Qc 1))) as Hc by (intros p; exists []; split; [constructor|]; split; [constructor|reflexivity]).
    change (positions (map axis_len [lon3])) with [[0]; [1]; [2]].
    repeat constructor; cbn [fst snd]; try apply Hc; try reflexivity; (apply Hv; [reflexivity|repeat constructor; lia|reflexivity]). }
  split.
  { pose proof (inv2_inverts (gram 2 line_obs) (gram_square _ _)) as Hi. assert (forall xs y, In (xs, y) line_obs -> length xs = 2%nat) as Hl by (intros xs y [E|[E|[E|[]]]]; injection E as <- _; reflexivity).
    destruct (inv2 (map (map Fin) (gram 2 line_obs))) as [w|] eqn:E.
    - destruct Hi as (w' & _ & Hw). pose proof (solution_best 2 line_obs Hl w' Hw) as Hb. destruct (Hb [Q2Qc 2; Q2Qc 1]) as [B1 B2]; [now rewrite (length_solution 2 line_obs w' Hw)|].
      assert (residual line_obs [Q2Qc 2; Q2Qc 1] = Q2Qc 0) as E0 by (apply Qc_is_canon; reflexivity). rewrite E0 in *.
      rewrite (B2 (Qcle_antisym _ _ (total_squares_nonneg _) B1)). exact Hb.
    - exfalso. apply (f_equal (fun o => match o with Some _ => true | None => false end)) in E. vm_compute in E. discriminate. }
  intros sqrt cdf ra Hra.
  assert (match multi_fit env0 zs 100 sqrt cdf inv2 [climb; constant] (source [lon3] straight) None None with Some (o, a) => o = [] /\ shape a = [] /\ map number (m_beta (val a [])) = [Some (5 # 2); Some (-1 # 2)]%Q /\ length (m_beta (val a [])) = 2%nat | None => False end) as K by (vm_compute; auto).
  unfold multi_beta. destruct (multi_fit _ _ _ _ _ _ _ _ _ _) as [[o a]|]; [|destruct K]. destruct K as (-> & Es & Eb & El).
  eexists. split.
  { unfold stored, stack_last. cbn [shape]. rewrite Es. cbn [app map length]. rewrite Hra. destruct (list_eq_dec Z.eq_dec [Z.of_nat 2] [2]) as [_|K]; [reflexivity|exfalso; apply K; reflexivity]. }
  split; [reflexivity|]. eexists. split; [reflexivity|]. destruct (m_beta (val a [])) as [|b0 [|b1 [|]]] eqn:E2; try discriminate. cbn [map] in Eb. injection Eb as E0 E1.
  assert (forall v q, number v = Some q -> v = Fin (Q2Qc q)) as Hn.
  { intros v q H. destruct v as [r| | |]; try discriminate. cbn in H. injection H as <-. f_equal. apply Qc_is_canon. cbn. rewrite Qred_correct. reflexivity. }
  cbn [stack_last val last removelast]. rewrite E2. cbn [nth Z.to_nat]. split; apply Hn; assumption.
Qed.
Print Assumptions C48_missing_axis_refuted.

(** regressions with two axes left *)
Definition lev3 : axis := Coord (MkCoord Plain [8] 1 [0; 5; 7]%Q [(9, [1; 2; 3]%Q)] [] (1 # 100000)).
Definition reg2 : axis := Coord (MkCoord Plain [9] 1 [1; 2]%Q [] [] (1 # 100000)).
Definition three_data (q : list Z) : num := match q with [_; _; 0] => num_of_Z 3 | [_; _; 1] => num_of_Z 5 | _ => num_of_Z 10 end.
Lemma two_left c : c = lev2 \/ c = lev3 -> let Y := source [lat2; c; lon3] three_data in
  regressable env0 [climb; ones] Y [slope_data; one_data] three_data None /\ extra_axes env0 [climb; ones] Y None [reg2] /\
  forall outer over, divides env0 [climb; ones] Y None outer over -> outer = [lat2; c] \/ outer = [c; lat2].
Proof.
  intros Hc Y. pose proof field_good as Hfg. inversion Hfg as [|? ? G1 H']; subst. inversion H' as [|? ? G2 _]; subst.
  assert (good_axis c) as G3.
  { destruct Hc as [->| ->]; [exact G1|exact G2]. }
  assert (unrelated lat2 c /\ unrelated c lat2 /\ unrelated lon3 c /\ unrelated c lon3 /\ unrelated c reg2 /\ unrelated reg2 c /\ (c_rtol (match c with Coord r => r | _ => match lat2 with Coord r => r | _ => MkCoord Plain [] 1 [] [] [] 0 end end) <= 1 # 100000)%Q /\ axis_len c > 0 /\ tight_axis c) as (U1 & U2 & U3 & U4 & U5 & U6 & _ & Lc & Tc).
  { destruct Hc as [->| ->]; repeat (split; [first [reflexivity|cbn; apply Qle_refl|cbn; lia]|]); split; try exact G3; cbn; apply Qle_refl. }
  assert (separate [lat2; c; lon3]) as Hsep.
  { intros [|[|[|i]]] [|[|[|j]]] a b Ha Hb Hne; cbn in Ha, Hb; try (exfalso; apply Hne; reflexivity); try (destruct i; discriminate); try (destruct j; discriminate);
    injection Ha as <-; injection Hb as <-; try assumption; reflexivity. }
  assert (combine_axes env0 (map var_axes [climb; ones]) = Some [lon3]) as EX by (vm_compute; reflexivity).
  assert (combine_axes env0 [[lon3]; [lat2; c; lon3]] = Some [lat2; c; lon3]) as ES by (destruct Hc as [->| ->]; vm_compute; reflexivity).
  assert (forall outer over, divides env0 [climb; ones] Y None outer over -> separate (outer ++ over) /\ (forall b, In b [lat2; c; lon3] <-> In b outer \/ In b over) /\ (forall b, In b over <-> b = lon3)) as Hdiv.
  { intros outer over (XA & EX' & (src & Es & Hs & Hin & Hb & Hall)). rewrite EX in EX'. injection EX' as <-. cbn [var_axes grid Y source] in Es. rewrite ES in Es. injection Es as <-.
    split; [exact Hs|]. split; [exact Hin|]. intros b. split.
    - intros Hov. destruct (Hb b Hov) as [(a & l & Ha & Hl) _]. destruct Ha as [<-|[]]. destruct (proj2 (Hin b) (or_intror Hov)) as [<-|[<-|[<-|[]]]]; [| |reflexivity]; exfalso; apply (restricts_related env0 env0_ok _ _ _ Hl); [reflexivity|exact U3].
    - intros ->. apply Hall; [right; right; now left| |]; exists lon3; eexists; (split; [|apply restricts_refl, G2]); [now left|right; right; now left]. }
  split; [|split].
  - split; [discriminate|]. split; [repeat constructor; try apply StencilProps.lon3_separate; intros inds Hi; eexists; (split; [reflexivity|]; split; reflexivity)|].
    split; [apply source_responds; exact Hsep|]. split.
    { assert (forall a, In a (flat_map var_axes ([climb; ones] ++ [Y])) -> a = lat2 \/ a = c \/ a = lon3) as Hin by (intros a Ha; cbn in Ha; intuition auto).
      assert (forall c, good_axis c -> compatible c c) as Hrefl by (intros c' Gc; right; left; eexists; apply restricts_refl, Gc). split.
      - intros a Ha. apply Hin in Ha as [->|[->| ->]]; [split; [split; [assumption|cbn; apply Qle_refl]|reflexivity]|split; [exact Tc|lia]|split; [split; [assumption|cbn; apply Qle_refl]|reflexivity]].
      - intros a b Ha Hb. apply Hin in Ha, Hb. destruct Ha as [->|[->| ->]], Hb as [->|[->| ->]]; try (apply Hrefl; assumption); left; split; try assumption; reflexivity. }
    split; [repeat constructor; intros q _; unfold slope_data, one_data; [destruct q as [|[|[[]|[]|]|] [|]]; eexists; reflexivity|eexists; reflexivity]|].
    split; [intros q _; unfold three_data; destruct q as [|? [|? [|[|[[]|[]|]|] [|]]]]; eexists; reflexivity|]. split; [discriminate|].
    intros outer over Hd x b Hx Hov. apply Hdiv in Hd as (_ & _ & H3). apply H3 in Hov. subst b. exists lon3. eexists. split; [destruct Hx as [<-|[<-|[]]]; now left|apply restricts_refl, G2].
  - split; [repeat constructor|]. intros outer over Hd. apply Hdiv in Hd as (Hs & H2 & _). apply separate_snoc; [exact (RegressProps.separate_outer _ _ Hs)|]. intros b Hb.
    destruct (proj2 (H2 b) (or_introl Hb)) as [<-|[<-|[<-|[]]]]; split; try assumption; reflexivity.
  - intros outer over Hd. apply Hdiv in Hd as (Hs & H2 & H3). pose proof (separate_NoDup _ Hs) as Hnd.
    assert (lat2 <> c /\ lat2 <> lon3 /\ c <> lon3) as (N1 & N2 & N3).
    { destruct Hc as [->| ->]; repeat split; intros E; apply (f_equal axis_class) in E; discriminate. }
    assert (In lat2 outer) as I1 by (destruct (proj1 (H2 lat2) (or_introl eq_refl)) as [H|H]; [exact H|apply H3 in H; contradiction]).
    assert (In c outer) as I2 by (destruct (proj1 (H2 c) (or_intror (or_introl eq_refl))) as [H|H]; [exact H|apply H3 in H; contradiction]).
    assert (forall b, In b outer -> b = lat2 \/ b = c) as I3.
    { intros b Hb. destruct (proj2 (H2 b) (or_introl Hb)) as [<-|[<-|[<-|[]]]]; auto. exfalso. assert (In lon3 over) as K by now apply H3. clear -Hnd Hb K.
      apply in_split in Hb as (l1 & l2 & ->). rewrite <- app_assoc in Hnd. cbn in Hnd. apply NoDup_remove_2 in Hnd. apply Hnd. rewrite !in_app_iff. auto. }
    assert (NoDup outer) as Hnd' by (apply separate_NoDup; exact (RegressProps.separate_outer _ _ Hs)).
    clear -I1 I2 I3 Hnd' N1. destruct outer as [|x [|y [|z o]]]; [destruct I1| | |].
    + destruct I1 as [E1|[]], I2 as [E2|[]]. congruence.
    + destruct I1 as [E1|[E1|[]]], I2 as [E2|[E2|[]]]; try (exfalso; congruence); subst; auto.
    + exfalso. inversion Hnd' as [|? ? K1 K2]; subst. inversion K2 as [|? ? K3 K4]; subst.
      destruct (I3 x (or_introl eq_refl)) as [->| ->], (I3 y (or_intror (or_introl eq_refl))) as [->| ->], (I3 z (or_intror (or_intror (or_introl eq_refl)))) as [->| ->];
        try (apply K1; left; reflexivity); try (apply K1; right; left; reflexivity); try (apply K3; left; reflexivity).
Qed.
Lemma beta_succeeds c : c = lev2 \/ c = lev3 -> forall sqrt cdf, multi_beta env0 zs 100 sqrt cdf inv2 reg2 [climb; ones] (source [lat2; c; lon3] three_data) None None <> None.
Proof. intros [->| ->] sqrt cdf E; apply (f_equal (fun o => match o with Some _ => true | None => false end)) in E; vm_compute in E; discriminate. Qed.
Example C48_transposed_example : exists Y, regressable env0 [climb; ones] Y [slope_data; one_data] three_data None /\ extra_axes env0 [climb; ones] Y None [reg2] /\ (forall outer over, divides env0 [climb; ones] Y None outer over -> exists a mid b, outer = a :: mid ++ [b] /\ axis_len a <> axis_len b) /\ forall sqrt cdf, multi_beta env0 zs 100 sqrt cdf inv2 reg2 [climb; ones] Y None None <> None.
Proof.
  exists (source [lat2; lev3; lon3] three_data). destruct (two_left lev3 (or_intror eq_refl)) as (H1 & H2 & H3). split; [exact H1|]. split; [exact H2|]. split.
  - intros outer over Hd. destruct (H3 outer over Hd) as [->| ->]; [exists lat2, [], lev3|exists lev3, [], lat2]; (split; [reflexivity|discriminate]).
  - exact (beta_succeeds lev3 (or_intror eq_refl)).
Qed.
Example C48_misplaced_example : exists Y, regressable env0 [climb; ones] Y [slope_data; one_data] three_data None /\ extra_axes env0 [climb; ones] Y None [reg2] /\ (forall outer over, divides env0 [climb; ones] Y None outer over -> exists a b, outer = [a; b] /\ axis_len a = 2 /\ axis_len b = 2) /\ forall sqrt cdf, multi_beta env0 zs 100 sqrt cdf inv2 reg2 [climb; ones] Y None None <> None.
Proof.
  exists (source [lat2; lev2; lon3] three_data). destruct (two_left lev2 (or_introl eq_refl)) as (H1 & H2 & H3). split; [exact H1|]. split; [exact H2|]. split.
  - intros outer over Hd. destruct (H3 outer over Hd) as [->| ->]; [exists lat2, lev2|exists lev2, lat2]; repeat split; reflexivity.
  - exact (beta_succeeds lev2 (or_introl eq_refl)).
Qed.
