(** C45, C46: regression and correlation. *)
From Coq Require Import ZArith List Bool Lia QArith_base Qcanon Field.
From Verif Require Import SortSpec IndexModel IndexSpec IndexProofs ArrModel ArrProofs ViewModel ViewSpec ViewProofs
     AxisModel AxisSpec AxisProofs VarOpsModel VarOpsSpec VarOpsProofs NumModel NumProofs ReduceModel ReduceSpec ReduceProofs StatProofs RespondProofs
     ClimSpec ClimLine StencilSpec UfuncModel UfuncSpec UfuncProofs UfuncView RegressModel RegressSpec RegressAxes RegressLine RegressProofs.
From Verif Require Import EnvExample ViewProps ReduceProps.
From Verif Require UfuncProps StencilProps InterpProps.
Import ListNotations.
Open Scope Z_scope.
Open Scope list_scope.

Lemma separate_outer (A B : list axis) : separate (A ++ B) -> separate A.
Proof.
  intros H i j a b Ha Hb Hne. apply (H i j a b); [rewrite nth_error_app1; [exact Ha|apply nth_error_Some; congruence]|rewrite nth_error_app1; [exact Hb|apply nth_error_Some; congruence]|exact Hne].
Qed.
Lemma stored_responds {V} env (axes : list axis) (s : arr V) : separate axes -> shape s = map axis_len axes -> responds env (Var axes (Values s)) (val s).
Proof. intros Hs E. split; [exact Hs|]. cbn. split; [exact E|]. intros p Hp. reflexivity. Qed.

Section Props.
Context (env : axenv) (Henv : env_ok env) (junk : list Z -> num) (MAX : Z) (HMAX : 1 <= MAX) (sqrt : num -> num) (cdf : num -> num -> num)
  (X Y : var axis num) (DX DY : list Z -> num).
(** some chosen dimension is not shared *)
Definition not_shared (axes : option (list nat)) : Prop :=
  exists l src i, axes = Some l /\ combine_axes env [var_axes X; var_axes Y] = Some src /\ In i l /\
    forall b, nth_error src i = Some b -> ~ (along_dimension X b /\ along_dimension Y b).
Lemma pair_all axes : responds env X DX -> responds env Y DY -> fitting X Y -> no_infinities X DX -> no_infinities Y DY -> (forall l, axes = Some l -> NoDup l) ->
  match pair_axes env X Y axes with
  | Some (outer, over) => splits env X Y axes outer over /\ separate outer /\
      exists s, pair_sums env junk MAX X Y outer over = Some s /\ shape s = map axis_len outer /\
        forall k, position (map axis_len outer) k -> exists pairs, pairs_at X Y DX DY outer over k pairs /\ val s k = sums_of (points pairs)
  | None => not_shared axes
  end.
Proof.
  intros HX HY Hfit HXi HYi Hnd. pose proof (pair_axes_spec env Henv X Y (proj1 HX) (proj1 HY) Hfit axes Hnd) as K. destruct (pair_axes env X Y axes) as [[outer over]|].
  - destruct K as (K1 & K2 & K3). pose proof K1 as (src & _ & Hsep & _). split; [exact K1|]. split; [exact (separate_outer _ _ Hsep)|].
    exact (pair_sums_spec env Henv MAX HMAX junk X Y DX DY HX HY Hfit HXi HYi outer over Hsep K2 K3).
  - destruct K as (l & src & E1 & E2 & i & Hi & Hb). exists l, src, i. auto.
Qed.
End Props.

(** *** C45 *)
(** regress(X, Y, axes, N_fac) *)
Theorem C45_regress : forall env, env_ok env -> forall junk MAX, 1 <= MAX -> forall sqrt cdf X Y DX DY,
  responds env X DX -> responds env Y DY -> fitting X Y -> no_infinities X DX -> no_infinities Y DY ->
  forall axes, (forall l, axes = Some l -> NoDup l) -> forall N_fac, (forall f, N_fac = Some f -> (Q2Qc 0 < f)%Qc) ->
  match regress env junk MAX sqrt cdf X Y axes (option_map Fin N_fac) with
  | Some y => exists over F, splits env X Y axes (var_axes y) over /\ over <> [] /\ computes env y F /\
      forall k, position (var_shape y) k -> exists pairs, pairs_at X Y DX DY (var_axes y) over k pairs /\ regression sqrt cdf N_fac (points pairs) (F k)
  | None => not_shared env X Y axes \/ exists outer, splits env X Y axes outer []
  end.
Proof.
  intros env Henv junk MAX HMAX sqrt cdf X Y DX DY HX HY Hfit HXi HYi axes Hnd N_fac HN.
  pose proof (pair_all env Henv junk MAX HMAX X Y DX DY axes HX HY Hfit HXi HYi Hnd) as K. unfold regress. destruct (pair_axes env X Y axes) as [[outer over]|]; [|now left].
  destruct K as (K1 & K2 & s & Es & Hs & Hv). destruct over as [|a over]; [right; exists outer; exact K1|]. rewrite Es. exists (a :: over), (fun k => fit_of sqrt cdf (option_map Fin N_fac) (val s k)).
  cbn [var_axes]. split; [exact K1|]. split; [discriminate|]. split.
  - apply (StencilProps.computed env Henv). exact (stored_responds env outer (map_arr (fit_of sqrt cdf (option_map Fin N_fac)) s) K2 Hs).
  - intros k Hk. destruct (Hv k Hk) as (pairs & P1 & P2). exists pairs. split; [exact P1|]. rewrite P2. now apply fit_of_spec.
Qed.
Print Assumptions C45_regress.

Lemma enough_dec N_fac l : {(Q2Qc 0 < freedom N_fac l)%Qc /\ differ (map fst l)} + {~ ((Q2Qc 0 < freedom N_fac l)%Qc /\ differ (map fst l))}.
Proof.
  destruct (Qclt_le_dec (Q2Qc 0) (freedom N_fac l)) as [H|H]; [|right; intros [K _]; exact (Qcle_not_lt _ _ H K)].
  destruct (differ_ltb (map fst l)) as [D1 D2]. destruct (qc_ltb (Q2Qc 0) (spread (map fst l))); [left; split; [exact H|now apply D1]|right; intros [_ K]; now apply D2].
Qed.
Lemma differ_dec l : {differ l} + {~ differ l}.
Proof. destruct (differ_ltb l) as [D1 D2]. destruct (qc_ltb (Q2Qc 0) (spread l)); [left; now apply D1|right; now apply D2]. Qed.

(** the fraction of the variance explained *)
Theorem C45_fraction : forall sqrt cdf N_fac l f q, regression sqrt cdf N_fac l f -> f_r2 f = Fin q -> (Q2Qc 0 <= q <= Q2Qc 1)%Qc.
Proof.
  intros sqrt cdf N_fac l f q (_ & _ & H3 & H4) E. destruct (enough_dec N_fac l) as [D|D]; [|rewrite H4 in E by tauto; discriminate].
  destruct (differ_dec (map snd l)) as [D2|D2]; [|rewrite H4 in E by tauto; discriminate].
  destruct (H3 D D2) as (a & b & Hl & E'). rewrite E in E'. injection E' as ->.
  pose proof (differ_spread _ D2) as Hs. pose proof (error_nonneg l a b) as He.
  assert (squared_error l a b <= spread (map snd l))%Qc as Hle.
  { destruct (Hl (average (map snd l)) (Q2Qc 0)) as [K _]. eapply Qcle_trans; [exact K|]. assert (squared_error l (average (map snd l)) (Q2Qc 0) = spread (map snd l)) as ->; [|apply Qcle_refl].
    unfold squared_error, spread, squares. rewrite !map_map. f_equal. apply map_ext. intros [x y]. cbn [snd]. ring. }
  pose proof (pos_ne _ Hs) as Hs'. set (e := squared_error l a b) in *. set (v := spread (map snd l)) in *.
  assert (Q2Qc 0 <= e / v)%Qc as H0 by (apply Qc_div_nonneg; assumption).
  assert (e / v <= Q2Qc 1)%Qc as H1.
  { replace (Q2Qc 1) with (v / v)%Qc by (field; exact Hs'). unfold Qcdiv. apply Qcmult_le_compat_r; [exact Hle|].
    replace (/ v)%Qc with (Q2Qc 1 / v)%Qc by (field; exact Hs'). apply Qc_div_nonneg; [discriminate|exact Hs]. }
  split.
  - apply Qcle_minus_iff in H1. replace (1 - e / v + - Q2Qc 0)%Qc with (Q2Qc 1 + - (e / v))%Qc by (change 1%Qc with (Q2Qc 1); ring). change (1 - e / v)%Qc with (Q2Qc 1 + - (e / v))%Qc. exact H1.
  - apply Qcle_minus_iff. replace (Q2Qc 1 + - (1 - e / v))%Qc with (e / v)%Qc by (change 1%Qc with (Q2Qc 1); ring). exact H0.
Qed.
Print Assumptions C45_fraction.

(** *** C46 *)
(** correlate(X, Y, axes), if some axis remains *)
Theorem C46_correlate : forall env, env_ok env -> forall junk MAX, 1 <= MAX -> forall sqrt cdf, root_sign sqrt -> forall X Y DX DY,
  responds env X DX -> responds env Y DY -> fitting X Y -> no_infinities X DX -> no_infinities Y DY ->
  forall axes, (forall l, axes = Some l -> NoDup l) ->
  match correlate env junk MAX sqrt cdf X Y axes with
  | Some y => exists over F, splits env X Y axes (var_axes y) over /\ computes env y F /\
      forall k, position (var_shape y) k -> exists pairs, pairs_at X Y DX DY (var_axes y) over k pairs /\ correlation sqrt cdf (points pairs) (F k)
  | None => not_shared env X Y axes \/ exists over, splits env X Y axes [] over
  end.
Proof.
  intros env Henv junk MAX HMAX sqrt cdf Hroot X Y DX DY HX HY Hfit HXi HYi axes Hnd.
  pose proof (pair_all env Henv junk MAX HMAX X Y DX DY axes HX HY Hfit HXi HYi Hnd) as K. unfold correlate. destruct (pair_axes env X Y axes) as [[outer over]|]; [|now left].
  destruct K as (K1 & K2 & s & Es & Hs & Hv). destruct outer as [|a outer]; [right; exists over; exact K1|]. rewrite Es. exists over, (fun k => corr_of sqrt cdf (val s k)).
  cbn [var_axes]. split; [exact K1|]. split.
  - apply (StencilProps.computed env Henv). exact (stored_responds env (a :: outer) (map_arr (corr_of sqrt cdf) s) K2 Hs).
  - intros k Hk. destruct (Hv k Hk) as (pairs & P1 & P2). exists pairs. split; [exact P1|]. rewrite P2. now apply corr_of_spec.
Qed.
Print Assumptions C46_correlate.

(** if no axis remains (as for two time series), it fails *)
Theorem C46_no_axes_refuted : forall env, env_ok env -> forall junk MAX, 1 <= MAX -> forall sqrt cdf X Y DX DY,
  responds env X DX -> responds env Y DY -> fitting X Y -> no_infinities X DX -> no_infinities Y DY ->
  forall axes, (forall l, axes = Some l -> NoDup l) -> forall over, splits env X Y axes [] over -> correlate env junk MAX sqrt cdf X Y axes = None.
Proof.
  intros env Henv junk MAX HMAX sqrt cdf X Y DX DY HX HY Hfit HXi HYi axes Hnd over (src & Es & _ & Hin & Hboth & Hall).
  pose proof (pair_all env Henv junk MAX HMAX X Y DX DY axes HX HY Hfit HXi HYi Hnd) as K. unfold correlate. destruct (pair_axes env X Y axes) as [[outer over']|]; [|reflexivity].
  destruct outer as [|b outer]; [reflexivity|exfalso]. destruct K as ((src' & Es' & Hsep & Hin' & Hboth' & Hall') & _). rewrite Es in Es'. injection Es' as <-.
  assert (In b src) as Hb by (apply Hin'; left; now left). assert (In b over) as Hbo by (destruct (proj1 (Hin b) Hb) as [[]|H]; exact H).
  assert (In b over') as Hbo'.
  { destruct axes as [l|].
    - assert (over = over') as <-; [|exact Hbo]. clear -Hall Hall'. revert over' Hall'. induction Hall as [|i c l over Hc _ IH]; intros o' H'; inversion H' as [|? c' ? o'' Hc' H'']; subst; [reflexivity|]. f_equal; [congruence|now apply IH].
    - apply Hall'; [exact Hb|apply (Hboth b Hbo)|apply (Hboth b Hbo)]. }
  apply separate_NoDup in Hsep. cbn [app] in Hsep. inversion Hsep as [|? ? Hno _]; subst. apply Hno, in_app_iff. now right.
Qed.
Print Assumptions C46_no_axes_refuted.

(** where the root is exact, the coefficient lies between -1 and 1, and its square is the fraction found by regress *)
Theorem C46_range : forall sqrt cdf l c s, correlation sqrt cdf l c -> differ (map fst l) -> differ (map snd l) ->
  sqrt (Fin (spread (map fst l) * spread (map snd l))%Qc) = Fin s -> (Q2Qc 0 < s)%Qc -> (s * s = spread (map fst l) * spread (map snd l))%Qc ->
  exists r, c_r c = Fin r /\ (r * s = joint_spread l)%Qc /\ (- Q2Qc 1 <= r <= Q2Qc 1)%Qc /\
    forall N_fac f, regression sqrt cdf N_fac l f -> (Q2Qc 0 < freedom N_fac l)%Qc -> f_r2 f = c_r2 c.
Proof.
  intros sqrt cdf l c s [H _] D1 D2 Es Hs Hss. destruct (H (conj D1 D2)) as (E1 & E2 & _). rewrite Es in E1. pose proof (pos_ne _ Hs) as Hs'. rewrite div_fin in E1 by exact Hs'.
  assert (l <> []) as Hne by (intros ->; now apply differ_ne in D1).
  pose proof (differ_spread _ D1) as P1. pose proof (differ_spread _ D2) as P2. pose proof (pos_ne _ P1) as N1. pose proof (pos_ne _ P2) as N2.
  exists (joint_spread l / s)%Qc. split; [exact E1|]. split; [field; exact Hs'|]. set (j := joint_spread l) in *.
  assert (j * j <= s * s)%Qc as Hb by (rewrite Hss; now apply joint_bound).
  assert (forall t, (t * t <= s * s)%Qc -> (t <= s)%Qc) as Hsq.
  { intros t Ht. apply Qcnot_lt_le. intros K. apply (Qclt_not_le _ _ K). exfalso. assert (s * s < t * t)%Qc as K'; [|exact (Qcle_not_lt _ _ Ht K')].
    apply Qclt_trans with (s * t)%Qc; [|apply Qcmult_lt_compat_r; [exact (Qclt_trans _ _ _ Hs K)|exact K]]. rewrite (Qcmult_comm s t). apply Qcmult_lt_compat_r; assumption. }
  assert (forall t, (t <= s)%Qc -> (t / s <= Q2Qc 1)%Qc) as Hdv.
  { intros t Ht. replace (Q2Qc 1) with (s / s)%Qc by (field; exact Hs'). unfold Qcdiv. apply Qcmult_le_compat_r; [exact Ht|]. replace (/ s)%Qc with (Q2Qc 1 / s)%Qc by (field; exact Hs'). apply Qc_div_nonneg; [discriminate|exact Hs]. }
  split.
  - split; [|apply Hdv, Hsq, Hb]. assert (- j / s <= Q2Qc 1)%Qc as K by (apply Hdv, Hsq; replace (- j * - j)%Qc with (j * j)%Qc by ring; exact Hb).
    apply Qcopp_le_compat in K. replace (- (- j / s))%Qc with (j / s)%Qc in K by (field; exact Hs'). exact K.
  - intros N_fac f (_ & _ & H3 & _) Hdof. destruct (H3 (conj Hdof D1) D2) as (a & b & Hl & E). rewrite E, E2, E1. cbn [mul]. f_equal.
    assert (a = offset l /\ b = slope l) as [-> ->].
    { pose proof (the_line l Hne D1) as Hl'. destruct (Hl (offset l) (slope l)) as [L1 L2]. destruct (Hl' a b) as [L3 L4].
      destruct (L4 (Qcle_antisym _ _ L1 L3)) as [-> ->]. now split. }
    rewrite (the_error l Hne D1). unfold slope. fold j. replace (j / s * (j / s))%Qc with (j * j / (s * s))%Qc by (field; exact Hs'). rewrite Hss. change 1%Qc with (Q2Qc 1). field. now split.
Qed.
Print Assumptions C46_range.

(** ** examples *)
Definition predictor (q : list Z) : num := match q with [0] => num_of_Z 1 | [1] => num_of_Z 2 | _ => num_of_Z 4 end.
Definition row : var axis num := source [lon3] predictor.
Definition id_root (v : num) : num := v.
Definition first_arg (t n : num) : num := t.
Definition show_fit (y : option (var axis fit)) (ps : list (list Z)) : option (list axis * list (list (option Q))) :=
  match y with
  | Some y => option_map (fun r => (var_axes y, map (fun p => let f := val r p in map number [f_m f; f_b f; f_r2 f; f_se f; f_sm f]) ps)) (var_get env0 (fun _ => Fit zero zero zero zero zero zero) y)
  | None => None
  end.
Definition show_corr (y : option (var axis corr)) (ps : list (list Z)) : option (list axis * list (list (option Q))) :=
  match y with
  | Some y => option_map (fun r => (var_axes y, map (fun p => let c := val r p in map number [c_r c; c_r2 c]) ps)) (var_get env0 (fun _ => Corr zero zero zero) y)
  | None => None
  end.
Lemma row_responds : responds env0 row predictor.
Proof. apply source_responds. apply StencilProps.lon3_separate. Qed.
Lemma lat2_lon3_fit (x y : var axis num) : incl (var_axes x ++ var_axes y) [lat2; lon3] -> fitting x y.
Proof.
  intros Hin. pose proof field_good as H. inversion H as [|? ? G1 H']; subst. inversion H' as [|? ? G2 _]; subst. split.
  - intros a Ha. apply Hin in Ha as [<-|[<-|[]]]; (split; [split; [assumption|cbn; apply Qle_refl]|reflexivity]).
  - intros a b Ha Hb. apply Hin in Ha, Hb. assert (forall c, good_axis c -> compatible c c) as Hrefl by (intros c Gc; right; left; eexists; apply restricts_refl, Gc).
    destruct Ha as [<-|[<-|[]]], Hb as [<-|[<-|[]]]; try (apply Hrefl; assumption); left; split; reflexivity.
Qed.
Lemma row_finite : no_infinities row predictor.
Proof. intros q _. unfold predictor. destruct q as [|[|[[]|[]|]|] [|]]; split; discriminate. Qed.
Lemma field_finite : no_infinities field obs.
Proof. intros q _. destruct q as [|[|[[]|[]|]|] [|[|[[]|[]|]|] [|]]]; split; discriminate. Qed.
Example C45_example :
  env_ok env0 /\ responds env0 row predictor /\ responds env0 field obs /\ fitting row field /\ no_infinities row predictor /\ no_infinities field obs /\
  show_fit (regress env0 zs 2 id_root first_arg row field None None) [[0]; [1]] =
    Some ([lat2], [[None; None; None; None; None]; [Some (12 # 7); Some (2 # 1); Some (48 # 49); Some (2 # 7); Some (3 # 49)]]) /\
  regress env0 zs 2 id_root first_arg row field (Some [1%nat]) None <> None /\ regress env0 zs 2 id_root first_arg row field (Some [0%nat]) None = None.
Proof.
  split; [exact env0_ok|]. split; [exact row_responds|]. split; [exact field_responds|]. split; [apply lat2_lon3_fit; intros a [<-|[<-|[<-|[]]]]; cbn; auto|].
  split; [exact row_finite|]. split; [exact field_finite|]. split; [vm_compute; reflexivity|]. split; [intros E; apply (f_equal (fun o => match o with Some _ => true | None => false end)) in E; vm_compute in E; discriminate|vm_compute; reflexivity].
Qed.
Lemma id_root_sign : root_sign id_root.
Proof. intros q _. unfold id_root, zero. cbn [ltb]. apply qc_ltb_lt. Qed.
Example C46_example :
  root_sign id_root /\ responds env0 row predictor /\ responds env0 field obs /\ fitting row field /\
  show_corr (correlate env0 zs 2 id_root first_arg row field None) [[0]; [1]] = Some ([lat2], [[Some (1 # 3)%Q; Some (1 # 9)%Q]; [Some (6 # 49)%Q; Some (36 # 2401)%Q]]) /\
  correlate env0 zs 2 id_root first_arg row row None = None /\ (exists over, splits env0 row row None [] over).
Proof.
  split; [exact id_root_sign|]. split; [exact row_responds|]. split; [exact field_responds|]. split; [apply lat2_lon3_fit; intros a [<-|[<-|[<-|[]]]]; cbn; auto|].
  split; [vm_compute; reflexivity|]. split; [vm_compute; reflexivity|].
  assert (fitting row row) as Hf by (apply lat2_lon3_fit; intros a [<-|[<-|[]]]; cbn; auto).
  pose proof (pair_axes_spec env0 env0_ok row row StencilProps.lon3_separate StencilProps.lon3_separate Hf None ltac:(discriminate)) as K.
  destruct (pair_axes env0 row row None) as [[outer over]|] eqn:E.
  - exists over. assert (outer = []) as ->; [|apply K]. apply (f_equal (option_map (fun p => length (fst p)))) in E. vm_compute in E. injection E as E. now destruct outer.
  - destruct K as (? & ? & ? & _). discriminate.
Qed.
Definition exact_root (v : num) : num := match v with Fin q => if qc_eqb q (Q2Qc 4) then Fin (Q2Qc 2) else v | _ => v end.
Definition straight : list (Qc * Qc) := [(Q2Qc 0, Q2Qc 1); (Q2Qc 1, Q2Qc 0); (Q2Qc 2, Q2Qc (-1))].
Example C46_range_example :
  let c := corr_of exact_root first_arg (sums_of straight) in
  correlation exact_root first_arg straight c /\ differ (map fst straight) /\ differ (map snd straight) /\
  exact_root (Fin (spread (map fst straight) * spread (map snd straight))%Qc) = Fin (Q2Qc 2) /\ number (c_r c) = Some (-1)%Q.
Proof.
  cbv zeta. split.
  { apply corr_of_spec. intros q Hq. unfold exact_root, zero. destruct (qc_eqb q (Q2Qc 4)) eqn:E; cbn [ltb]; [|apply qc_ltb_lt]. apply qc_eqb_eq in E. subst q. split; reflexivity. }
  split; [exists (Q2Qc 0), (Q2Qc 1); cbn; repeat split; auto; discriminate|]. split; [exists (Q2Qc 0), (Q2Qc 1); cbn; repeat split; auto; discriminate|].
  split; [|vm_compute; reflexivity]. unfold exact_root. assert (spread (map fst straight) * spread (map snd straight) = Q2Qc 4)%Qc as -> by (apply Qc_is_canon; reflexivity). reflexivity.
Qed.
