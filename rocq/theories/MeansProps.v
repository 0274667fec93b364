(** C47: tests of means. *)
From Coq Require Import ZArith List Bool Lia QArith_base Qreduction Qcanon.
From Verif Require Import SortSpec IndexModel IndexSpec IndexProofs ArrModel ArrProofs ViewModel ViewSpec ViewProofs
     AxisModel AxisSpec AxisProofs VarOpsModel VarOpsSpec VarOpsProofs NumModel NumProofs ReduceModel ReduceSpec ReduceProofs ReduceKinds StatProofs RespondProofs
     FibreProofs StencilSpec UfuncModel UfuncSpec UfuncProofs UfuncView RegressModel RegressSpec RegressAxes RegressLine RegressProofs RegressProps
     MeansModel MeansSpec MeansProofs MeansPairs.
From Verif Require Import EnvExample ViewProps ReduceProps.
From Verif Require UfuncProps StencilProps InterpProps.
Import ListNotations.
Open Scope Z_scope.
Open Scope list_scope.

(** number of elements reduced over *)
Definition reduced_size (x : var axis num) (indices : list nat) : Z := prod (map (fun i => nth i (var_shape x) 0) indices).

Lemma separate_dropped g : forall l : list axis, separate l -> separate (dropped g l).
Proof.
  assert (forall g (l : list axis) i a, nth_error (dropped g l) i = Some a -> exists i', nth_error l i' = Some a) as _.
  { intros g' l i a H. apply nth_error_In in H. apply dropped_incl in H. now apply In_nth_error in H. }
  assert (forall g (l : list axis), exists f, (forall i a, nth_error (dropped g l) i = Some a -> nth_error l (f i) = Some a) /\ (forall i j, f i = f j -> i = j)) as K.
  { clear. induction g as [|b g IH]; intros l.
    - exists (fun i => i). split; [|auto]. intros [|i] a H; discriminate.
    - destruct l as [|x l]; [exists (fun i => i); split; [|auto]; destruct b; intros [|i] a H; discriminate|]. destruct (IH l) as (f & F1 & F2). destruct b; cbn [dropped].
      + exists (fun i => S (f i)). split; [intros i a H; exact (F1 i a H)|]. intros i j H. apply F2. lia.
      + exists (fun i => match i with 0%nat => 0%nat | S i => S (f i) end). split; [intros [|i] a H; [exact H|exact (F1 i a H)]|]. intros [|i] [|j] H; try lia. f_equal. apply F2. lia. }
  intros l Hs i j a b Ha Hb Hne. destruct (K g l) as (f & F1 & F2). apply (Hs (f i) (f j) a b); [now apply F1|now apply F1|]. intros E. apply Hne. now apply F2.
Qed.

(** isnonzero(X, axes, alpha, N_fac) *)
Theorem C47_isnonzero : forall env, env_ok env -> forall junk MAX, 1 <= MAX -> forall sqrt cdf ppf, root_sign sqrt -> forall X D,
  responds env X D -> Forall good_axis (var_axes X) -> (forall a, In a (var_axes X) -> 0 < axis_len a) -> no_infinities X D ->
  forall indices, reducible X indices -> forall alpha N_fac, (forall f, N_fac = Some f -> 0 < f) ->
  match isnonzero env junk MAX sqrt cdf ppf X indices alpha N_fac with
  | Some y => 1 < reduced_size X indices /\ reduces_to env X D indices y (fun l z => mean_test sqrt cdf ppf alpha N_fac (numbers l) z)
  | None => reduced_size X indices <= 1
  end.
Proof.
  intros env Henv junk MAX HMAX sqrt cdf ppf Hroot X D HX Hg Hpos Hfin ix Hred alpha N_fac HN. unfold isnonzero.
  change (count_reduced (var_axes X) ix) with (reduced_size X ix). destruct (Z.leb_spec (reduced_size X ix) 1) as [H|H]; [exact H|].
  destruct (sample_spec env Henv MAX HMAX junk X D HX Hg Hfin ix Hred Hpos) as (r & Er & Sr & Vr). rewrite Er. split; [exact H|].
  assert (responds env (Var (kept_axes (var_axes X) ix) (Values (map_arr (zero_point sqrt cdf ppf alpha N_fac) r))) (fun k => zero_point sqrt cdf ppf alpha N_fac (val r k))) as Hr.
  { apply (stored_responds env _ (map_arr (zero_point sqrt cdf ppf alpha N_fac) r)); [|exact Sr]. rewrite kept_dropped. apply separate_dropped. exact (proj1 HX). }
  split; [cbn [var_axes]; apply kept_dropped|]. exists (fun k => zero_point sqrt cdf ppf alpha N_fac (val r k)). split; [exact Hr|].
  split; [intros j; exact (responds_delivers env Henv j _ _ Hr)|]. intros k Hk. rewrite (Vr k Hk). now apply zero_point_spec.
Qed.
Print Assumptions C47_isnonzero.

(** difference(X, Y, axes, alpha, Nx_fac, Ny_fac); axes by their positions in the combined axes, in X and in Y; the remaining axes are the same *)
Theorem C47_difference : forall env, env_ok env -> forall junk MAX, 1 <= MAX -> forall sqrt cdf ppf, root_sign sqrt -> forall X Y DX DY,
  responds env X DX -> responds env Y DY -> fitting X Y -> no_infinities X DX -> no_infinities Y DY ->
  forall src outer ri ix iy, combine_axes env [var_axes X; var_axes Y] = Some src ->
  (forall i, In i ri -> exists b, nth_error src i = Some b /\ along_dimension X b /\ along_dimension Y b) ->
  reducible X ix -> reducible Y iy ->
  dropped (reduced_flags (length src) ri) src = outer ->
  dropped (reduced_flags (length (var_axes X)) ix) (var_axes X) = outer -> dropped (reduced_flags (length (var_axes Y)) iy) (var_axes Y) = outer ->
  forall alpha Nx_fac Ny_fac, (forall f, Nx_fac = Some f -> 0 < f) -> (forall f, Ny_fac = Some f -> 0 < f) ->
  match difference env junk MAX sqrt cdf ppf X Y ri ix iy alpha Nx_fac Ny_fac with
  | Some z => exists F, var_axes z = outer /\ computes env z F /\ forall k, position (map axis_len outer) k ->
      welch_test sqrt cdf ppf alpha Nx_fac Ny_fac
        (numbers (map DX (fibre (reduced_flags (length (var_axes X)) ix) (var_shape X) k)))
        (numbers (map DY (fibre (reduced_flags (length (var_axes Y)) iy) (var_shape Y) k))) (F k)
  | None => reduced_size X ix <= 1 \/ reduced_size Y iy <= 1
  end.
Proof.
  intros env Henv junk MAX HMAX sqrt cdf ppf Hroot X Y DX DY HX HY Hfit HXi HYi src outer ri ix iy Esrc Hri Hrx Hry Es Ex Ey alpha Nx_fac Ny_fac HNx HNy.
  pose proof Hfit as [Hf1 Hf2]. unfold difference.
  assert (Forall tight_axis (var_axes X ++ var_axes Y)) as Ht by (apply Forall_forall; intros a Ha; exact (proj1 (Hf1 a Ha))).
  destruct (combine_axes_spec env Henv (var_axes X ++ var_axes Y) Ht Hf2 [var_axes X; var_axes Y]) as (src' & Esrc' & Hincl & Hsep & Hcov).
  { cbn. now rewrite app_nil_r. } { discriminate. } { constructor; [exact (proj1 HX)|constructor; [exact (proj1 HY)|constructor]]. }
  rewrite Esrc in *. injection Esrc' as <-.
  assert (forallb (fun i => mem_nat i (snd (shared_axes env src (var_axes X) (var_axes Y)))) ri = true) as ->.
  { apply forallb_forall. intros i Hi. apply mem_nat_In. apply (in_shared env Henv (var_axes X) (var_axes Y) src Ht Hf2 Hincl Hsep Hcov i). destruct (Hri i Hi) as (b & Hb & K1 & K2). exists b. split; [exact Hb|]. split; assumption. }
  cbn [negb]. change (count_reduced (var_axes X) ix) with (reduced_size X ix). change (count_reduced (var_axes Y) iy) with (reduced_size Y iy).
  destruct (Z.leb_spec (reduced_size X ix) 1) as [H1|H1]; [now left|]. destruct (Z.leb_spec (reduced_size Y iy) 1) as [H2|H2]; [now right|]. cbn [orb].
  assert (Forall good_axis (var_axes X) /\ Forall good_axis (var_axes Y)) as [Gx Gy].
  { split; apply Forall_forall; intros a Ha; apply (Hf1 a), in_app_iff; auto. }
  destruct (sample_spec env Henv MAX HMAX junk X DX HX Gx HXi ix Hrx) as (rx & Rx & Sx & Vx); [intros a Ha; apply Hf1, in_app_iff; now left|].
  destruct (sample_spec env Henv MAX HMAX junk Y DY HY Gy HYi iy Hry) as (ry & Ry & Sy & Vy); [intros a Ha; apply Hf1, in_app_iff; now right|].
  assert (kept_axes src ri = outer) as Ko by (rewrite kept_dropped; exact Es).
  assert (kept_axes (var_axes X) ix = outer) as Kx by (rewrite kept_dropped; exact Ex).
  assert (kept_axes (var_axes Y) iy = outer) as Ky by (rewrite kept_dropped; exact Ey).
  rewrite Kx in Rx, Sx, Vx. rewrite Ky in Ry, Sy, Vy. rewrite Ko, Rx, Ry.
  destruct (zip_to_spec (welch sqrt cdf ppf alpha Nx_fac Ny_fac) rx ry (map axis_len outer) (val rx) (val ry)) as (z & Ez & Sz & Vz); [split; auto|split; auto|].
  rewrite Ez. exists (val z). cbn [var_axes]. split; [reflexivity|]. split.
  - apply (StencilProps.computed env Henv). apply (stored_responds env outer z); [|exact Sz]. rewrite <- Es. now apply separate_dropped.
  - intros k Hk. rewrite (Vz k Hk), (Vx k Hk), (Vy k Hk). now apply welch_spec.
Qed.
Print Assumptions C47_difference.

(** paired_difference(X, Y, axes, alpha, N_fac); the axes have the same positions in the combined axes, in X and in Y *)
Theorem C47_paired : forall env, env_ok env -> forall junk MAX, 1 <= MAX -> forall sqrt cdf ppf, root_sign sqrt -> forall X Y DX DY,
  responds env X DX -> responds env Y DY -> fitting X Y -> no_infinities X DX -> no_infinities Y DY ->
  forall src indices, combine_axes env [var_axes X; var_axes Y] = Some src -> NoDup indices ->
  (forall i, In i indices -> exists b, nth_error src i = Some b /\ along_dimension X b /\ along_dimension Y b) ->
  forall alpha N_fac, (forall f, N_fac = Some f -> 0 < f) ->
  match paired_difference env junk MAX sqrt cdf ppf X Y indices indices indices alpha N_fac with
  | Some z => exists F, var_axes z = dropped (reduced_flags (length src) indices) src /\ computes env z F /\ forall k, position (var_shape z) k ->
      exists l, differences_at X Y DX DY src (fibre (reduced_flags (length src) indices) (map axis_len src) k) l /\ paired_result sqrt cdf ppf alpha N_fac (numbers l) (F k)
  | None => reduced_size X indices <= 1 \/ reduced_size X indices <> reduced_size Y indices
  end.
Proof.
  intros env Henv junk MAX HMAX sqrt cdf ppf Hroot X Y DX DY HX HY Hfit HXi HYi src ix Esrc Hnd Hri alpha N_fac HN.
  pose proof Hfit as [Hf1 Hf2]. unfold paired_difference.
  assert (Forall tight_axis (var_axes X ++ var_axes Y)) as Ht by (apply Forall_forall; intros a Ha; exact (proj1 (Hf1 a Ha))).
  destruct (combine_axes_spec env Henv (var_axes X ++ var_axes Y) Ht Hf2 [var_axes X; var_axes Y]) as (src' & Esrc' & Hincl & Hsep & Hcov).
  { cbn. now rewrite app_nil_r. } { discriminate. } { constructor; [exact (proj1 HX)|constructor; [exact (proj1 HY)|constructor]]. }
  rewrite Esrc in *. injection Esrc' as <-.
  assert (forallb (fun i => mem_nat i (snd (shared_axes env src (var_axes X) (var_axes Y)))) ix = true) as ->.
  { apply forallb_forall. intros i Hi. apply mem_nat_In. apply (in_shared env Henv (var_axes X) (var_axes Y) src Ht Hf2 Hincl Hsep Hcov i). destruct (Hri i Hi) as (b & Hb & K1 & K2). exists b. split; [exact Hb|]. split; assumption. }
  cbn [negb]. change (count_reduced (var_axes X) ix) with (reduced_size X ix). change (count_reduced (var_axes Y) ix) with (reduced_size Y ix).
  destruct (list_eq_dec Nat.eq_dec ix ix) as [_|]; [|contradiction]. cbn [andb].
  destruct (Z.eqb_spec (reduced_size X ix) (reduced_size Y ix)) as [He|He]; [|now right]. cbn [negb orb].
  destruct (Z.leb_spec (reduced_size X ix) 1) as [H1|H1]; [now left|].
  destruct (locate_axes (var_axes X ++ var_axes Y) src (var_axes X) Hsep Hcov) as (jx & Jx & Nx); [intros a Ha; apply in_app_iff; now left|exact (proj1 HX)|].
  destruct (locate_axes (var_axes X ++ var_axes Y) src (var_axes Y) Hsep Hcov) as (jy & Jy & Ny); [intros a Ha; apply in_app_iff; now right|exact (proj1 HY)|].
  assert (Forall (fun i => (i < length src)%nat) ix) as Hlt.
  { apply Forall_forall. intros i Hi. destruct (Hri i Hi) as (b & Hb & _). apply nth_error_Some. congruence. }
  destruct (difference_samples env Henv MAX HMAX junk X Y DX DY HX HY Hfit src Hsep Hincl jx jy Jx Nx Jy Ny ix Hnd Hlt HXi HYi) as (r1 & r2 & r3 & R1 & R2 & R3 & S1 & Hv).
  rewrite R1, R2, R3. cbn [var_axes]. eexists. split; [apply kept_dropped|]. split.
  - apply (StencilProps.computed env Henv). eapply (stored_responds env (kept_axes src ix)); [|exact S1]. rewrite kept_dropped. now apply separate_dropped.
  - intros k Hk. destruct (Hv k Hk) as (l & L1 & L2). exists l. split; [exact L1|]. cbn [val]. rewrite L2. now apply paired_test_spec.
Qed.
Print Assumptions C47_paired.

(** ** where they go wrong *)
Definition series3 (f : Z -> num) : var axis num := source [lon3] (fun q => f (hd 0 q)).
Lemma series3_responds f : responds env0 (series3 f) (fun q => f (hd 0 q)).
Proof. apply source_responds. apply StencilProps.lon3_separate. Qed.
Lemma series3_fit f g : fitting (series3 f) (series3 g).
Proof. apply lat2_lon3_fit. intros a [<-|[<-|[]]]; cbn; auto. Qed.
Lemma series3_finite f : (forall i, tame (f i)) -> no_infinities (series3 f) (fun q => f (hd 0 q)).
Proof. intros H q _. apply H. Qed.
(** the whole result, if it has no axes *)
Definition scalar {W} (junk : W) (y : option (var axis W)) : option W :=
  match y with Some y => option_map (fun r => val r []) (var_get env0 (fun _ => junk) y) | None => None end.
Definition no_test : test := Test zero zero zero zero.
Definition no_zero : zero_test := ZeroTest zero zero zero.
Definition half : num := Fin (Q2Qc (1 # 2)).

Lemma fin_is v q : match v with Fin p => Qeq_bool (this p) q | _ => false end = true -> v = Fin (Q2Qc q).
Proof. destruct v as [p| | |]; try discriminate. intros H. apply Qeq_bool_eq in H. f_equal. apply Qc_is_canon. cbn [this Q2Qc]. rewrite H. symmetry. apply Qred_correct. Qed.
(** a sample with a single value: the difference of the sums instead of the means *)
Definition lone (i : Z) : num := if i =? 0 then num_of_Z 5 else NaN.
Definition ones (i : Z) : num := num_of_Z 1.
Theorem C47_single_refuted : exists X Y DX DY,
  responds env0 X DX /\ responds env0 Y DY /\ fitting X Y /\ no_infinities X DX /\ no_infinities Y DY /\ reducible X [0%nat] /\ reducible Y [0%nat] /\
  numbers (map DX (positions (var_shape X))) = [Q2Qc 5] /\ numbers (map DY (positions (var_shape Y))) = [Q2Qc 1; Q2Qc 1; Q2Qc 1] /\
  forall sqrt cdf ppf, option_map t_d (scalar no_test (difference env0 zs 2 sqrt cdf ppf X Y [0%nat] [0%nat] [0%nat] half None None)) = Some (num_of_Z 2).
Proof.
  exists (series3 lone), (series3 ones). eexists. eexists. split; [apply series3_responds|]. split; [apply series3_responds|]. split; [apply series3_fit|].
  split; [apply series3_finite; intros i; unfold lone; destruct (i =? 0); split; discriminate|]. split; [apply series3_finite; intros i; split; discriminate|].
  assert (forall f, reducible (series3 f) [0%nat]) as Hr.
  { intros f. split; [discriminate|]. split; [constructor; [intros []|constructor]|]. constructor; [|constructor]. exists lon3. split; reflexivity. }
  split; [apply Hr|]. split; [apply Hr|]. split; [vm_compute; reflexivity|]. split; [vm_compute; reflexivity|].
  intros sqrt cdf ppf. vm_compute. reflexivity.
Qed.
Print Assumptions C47_single_refuted.

(** nothing but missing values: mean 0 with p-value 0 *)
Theorem C47_missing_refuted : exists X D,
  responds env0 X D /\ no_infinities X D /\ reducible X [0%nat] /\ (forall q, D q = NaN) /\
  forall sqrt cdf ppf, scalar no_zero (isnonzero env0 zs 2 sqrt cdf ppf X [0%nat] half None) = Some (ZeroTest zero zero zero).
Proof.
  exists (series3 (fun _ => NaN)), (fun _ => NaN). split; [exact (series3_responds (fun _ => NaN))|]. split; [exact (series3_finite (fun _ => NaN) (fun i => ltac:(split; discriminate)))|].
  split. { split; [discriminate|]. split; [constructor; [intros []|constructor]|]. constructor; [|constructor]. exists lon3. split; reflexivity. }
  split; [reflexivity|]. intros sqrt cdf ppf. vm_compute. reflexivity.
Qed.
Print Assumptions C47_missing_refuted.

(** a constant other than 0: the p-value of t = 0, as if the mean were 0 *)
Theorem C47_constant_refuted : exists X D,
  responds env0 X D /\ no_infinities X D /\ reducible X [0%nat] /\ (forall q, D q = num_of_Z 5) /\
  forall sqrt cdf ppf, root_sign sqrt -> option_map z_p (scalar no_zero (isnonzero env0 zs 2 sqrt cdf ppf X [0%nat] half None)) = Some (mul (num_of_Z 2) (sub (num_of_Z 1) (cdf zero (num_of_Z 2)))).
Proof.
  exists (series3 (fun _ => num_of_Z 5)), (fun _ => num_of_Z 5). split; [exact (series3_responds (fun _ => num_of_Z 5))|]. split; [exact (series3_finite (fun _ => num_of_Z 5) (fun i => ltac:(split; discriminate)))|].
  split. { split; [discriminate|]. split; [constructor; [intros []|constructor]|]. constructor; [|constructor]. exists lon3. split; reflexivity. }
  split; [reflexivity|]. intros sqrt cdf ppf Hroot.
  assert (scalar no_zero (isnonzero env0 zs 2 sqrt cdf ppf (series3 (fun _ => num_of_Z 5)) [0%nat] half None) =
          Some (zero_point sqrt cdf ppf half None (sample_of [Q2Qc 5; Q2Qc 5; Q2Qc 5]))) as -> by (vm_compute; reflexivity).
  cbn [option_map]. unfold zero_point, sample_of. cbn [z_p effective].
  assert (ltb zero (num_of_Z (zlen [Q2Qc 5; Q2Qc 5; Q2Qc 5])) = true) as -> by reflexivity.
  match goal with |- context [sqrt ?v] => assert (v = Fin (Q2Qc 0)) as -> by (apply fin_is; vm_compute; reflexivity) end.
  assert (ltb zero (sqrt (Fin (Q2Qc 0))) = false) as ->.
  { destruct (ltb zero (sqrt (Fin (Q2Qc 0)))) eqn:E; [|reflexivity]. apply (Hroot (Q2Qc 0) (Qcle_refl _)) in E. discriminate. }
  reflexivity.
Qed.
Print Assumptions C47_constant_refuted.

(** a variable against itself: no difference, with p-value 0 *)
Theorem C47_self_refuted : exists X D,
  responds env0 X D /\ no_infinities X D /\ reducible X [0%nat] /\ fitting X X /\ (forall q, exists v, D q = Fin v) /\
  forall sqrt cdf ppf, root_sign sqrt -> scalar no_test (paired_difference env0 zs 2 sqrt cdf ppf X X [0%nat] [0%nat] [0%nat] half None) = Some (Test zero (num_of_Z 2) zero zero).
Proof.
  exists (series3 num_of_Z). eexists. split; [apply series3_responds|]. split; [apply series3_finite; intros i; split; discriminate|].
  split. { split; [discriminate|]. split; [constructor; [intros []|constructor]|]. constructor; [|constructor]. exists lon3. split; reflexivity. }
  split; [apply series3_fit|]. split; [intros q; eexists; reflexivity|]. intros sqrt cdf ppf Hroot.
  assert (scalar no_test (paired_difference env0 zs 2 sqrt cdf ppf (series3 num_of_Z) (series3 num_of_Z) [0%nat] [0%nat] [0%nat] half None) =
          Some (paired_test sqrt cdf ppf half None (sample_of [Q2Qc 0; Q2Qc 0; Q2Qc 0]))) as -> by (vm_compute; reflexivity).
  f_equal. pose proof (paired_test_spec sqrt cdf ppf Hroot half None [Q2Qc 0; Q2Qc 0; Q2Qc 0] ltac:(discriminate)) as (K1 & K2 & _ & K3).
  destruct (paired_test sqrt cdf ppf half None (sample_of [Q2Qc 0; Q2Qc 0; Q2Qc 0])) as [d df p ci]. cbn [t_d t_df t_p t_ci] in *.
  destruct K3 as [-> ->]; [intros [_ (u & v & Hu & Hv & Huv)]; cbn in Hu, Hv; apply Huv; intuition congruence|]. rewrite K1, K2 by (cbn; lia). f_equal; apply fin_is; vm_compute; reflexivity.
Qed.
Print Assumptions C47_self_refuted.

(** the standard error of paired_difference is that of one value fewer *)
Theorem C47_standard_error_refuted : exists X Y DX DY,
  responds env0 X DX /\ responds env0 Y DY /\ fitting X Y /\ no_infinities X DX /\ no_infinities Y DY /\
  forall sqrt cdf ppf, root_sign sqrt -> exists t, scalar no_test (paired_difference env0 zs 2 sqrt cdf ppf X Y [0%nat] [0%nat] [0%nat] half None) = Some t /\
    let l := [Q2Qc (-1); Q2Qc 0; Q2Qc 1] in
    numbers (map (fun i => sub (DX [i]) (DY [i])) [0; 1; 2]) = l /\
    t_ci t = interval ppf half (sqrt (Fin (Q2Qc (1 # 2)))) (num_of_Z 2) /\ mean_variance 3 l = Q2Qc (1 # 3).
Proof.
  exists (series3 num_of_Z), (series3 ones). eexists. eexists. split; [apply series3_responds|]. split; [apply series3_responds|]. split; [apply series3_fit|].
  split; [apply series3_finite; intros i; split; discriminate|]. split; [apply series3_finite; intros i; split; discriminate|]. intros sqrt cdf ppf Hroot.
  exists (paired_test sqrt cdf ppf half None (sample_of [Q2Qc (-1); Q2Qc 0; Q2Qc 1])). split; [vm_compute; reflexivity|]. cbv zeta. split; [vm_compute; reflexivity|].
  pose proof (paired_test_spec sqrt cdf ppf Hroot half None [Q2Qc (-1); Q2Qc 0; Q2Qc 1] ltac:(discriminate)) as (K1 & K2 & K3 & _). cbv zeta in K3. destruct K3 as [_ K3].
  { split; [reflexivity|]. exists (Q2Qc 0), (Q2Qc 1). cbn. repeat split; auto. discriminate. }
  rewrite K3, K2. split; [|apply Qc_is_canon; reflexivity]. f_equal.
Qed.
Print Assumptions C47_standard_error_refuted.

(** the remaining axes in another order: values are subtracted that do not belong together *)
Definition lev2 : axis := Coord (MkCoord Plain [7] 1 [10; 20]%Q [] [] (1 # 100000)).
Definition ground (q : list Z) : num := match q with [i; j; r] => num_of_Z (10 * i + j) | _ => zero end.
Definition turned (q : list Z) : num := match q with [j; i; r] => num_of_Z (10 * i + j) | _ => zero end.
Ltac three_axes := intros [|[|[|i]]] [|[|[|j]]] a b Ha Hb Hne; cbn in Ha, Hb; try (exfalso; apply Hne; reflexivity); try (destruct i; discriminate); try (destruct j; discriminate);
  injection Ha as <-; injection Hb as <-; vm_compute; auto.
Theorem C47_order_refuted : exists X Y DX DY,
  responds env0 X DX /\ responds env0 Y DY /\ no_infinities X DX /\ no_infinities Y DY /\ fitting X Y /\
  (exists a b c, var_axes X = [a; b; c] /\ var_axes Y = [b; a; c]) /\ (forall i j r, DX [i; j; r] = DY [j; i; r]) /\
  forall sqrt cdf ppf, exists z, difference env0 zs 100 sqrt cdf ppf X Y [2%nat] [2%nat] [2%nat] half None None = Some z /\
    option_map (fun r => t_d (val r [0; 1])) (var_get env0 (fun _ => no_test) z) = Some (num_of_Z (-9)).
Proof.
  exists (source [lat2; lev2; lon3] ground), (source [lev2; lat2; lon3] turned), ground, turned.
  split; [apply source_responds; three_axes|]. split; [apply source_responds; three_axes|].
  split; [intros q _; destruct q as [|? [|? [|? [|]]]]; split; discriminate|]. split; [intros q _; destruct q as [|? [|? [|? [|]]]]; split; discriminate|].
  split.
  { pose proof field_good as H. inversion H as [|? ? G1 H']; subst. inversion H' as [|? ? G2 _]; subst. assert (good_axis lev2) as G3 by exact G1.
    assert (forall a, In a [lat2; lev2; lon3; lev2; lat2; lon3] -> a = lat2 \/ a = lev2 \/ a = lon3) as Hin by (intros a Ha; cbn in Ha; intuition auto).
    assert (forall c, good_axis c -> compatible c c) as Hrefl by (intros c Gc; right; left; eexists; apply restricts_refl, Gc).
    split.
    - intros a Ha. apply Hin in Ha as [->|[->| ->]]; (split; [split; [assumption|cbn; apply Qle_refl]|reflexivity]).
    - intros a b Ha Hb. apply Hin in Ha, Hb. destruct Ha as [->|[->| ->]], Hb as [->|[->| ->]]; try (apply Hrefl; assumption); left; split; reflexivity. }
  split; [exists lat2, lev2, lon3; split; reflexivity|]. split; [reflexivity|]. intros sqrt cdf ppf.
  match goal with |- exists z, ?d = Some z /\ option_map ?g (var_get ?e ?j z) = ?v =>
    assert (match d with Some z => option_map g (var_get e j z) = v | None => False end) as K by (vm_compute; reflexivity); destruct d as [z|]; [exists z; split; [reflexivity|exact K]|destruct K] end.
Qed.
Print Assumptions C47_order_refuted.

(** ** examples *)
Definition warm (i : Z) : num := num_of_Z (i * i).
Example C47_example :
  root_sign id_root /\ responds env0 field obs /\ Forall good_axis (var_axes field) /\ (forall a, In a (var_axes field) -> 0 < axis_len a) /\ no_infinities field obs /\ reducible field [1%nat] /\
  reducible (series3 warm) [0%nat] /\ fitting (series3 warm) (series3 num_of_Z) /\ no_infinities (series3 warm) (fun q => warm (hd 0 q)) /\
  combine_axes env0 [[lon3]; [lon3]] = Some [lon3] /\
  option_map (fun t => map number [t_d t; t_df t; t_p t; t_ci t]) (scalar no_test (difference env0 zs 2 id_root first_arg first_arg (series3 warm) (series3 num_of_Z) [0%nat] [0%nat] [0%nat] half None None)) =
    Some [Some (2 # 3); Some (256 # 89); Some (5 # 4); Some (4 # 3)]%Q /\
  option_map (fun t => map number [t_d t; t_df t; t_p t; t_ci t]) (scalar no_test (paired_difference env0 zs 2 id_root first_arg first_arg (series3 warm) (series3 num_of_Z) [0%nat] [0%nat] [0%nat] half None)) =
    Some [Some (2 # 3); Some 2; Some 0; Some (1 # 2)]%Q.
Proof.
  split; [exact id_root_sign|]. split; [exact field_responds|]. split; [exact field_good|]. split; [intros a [<-|[<-|[]]]; reflexivity|]. split; [exact field_finite|].
  split. { split; [discriminate|]. split; [constructor; [intros []|constructor]|]. constructor; [|constructor]. exists lon3. split; reflexivity. }
  split. { split; [discriminate|]. split; [constructor; [intros []|constructor]|]. constructor; [|constructor]. exists lon3. split; reflexivity. }
  split; [apply series3_fit|]. split; [apply series3_finite; intros i; split; discriminate|]. split; [reflexivity|]. split; vm_compute; reflexivity.
Qed.
