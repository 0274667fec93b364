(** C38: smoothing along an axis. *)
From Coq Require Import ZArith List Bool Lia QArith_base Qcanon.
From Verif Require Import SortSpec IndexModel IndexSpec IndexProofs ArrModel ArrProofs ViewModel ViewSpec ViewProofs AxisModel AxisSpec AxisProofs VarOpsModel VarOpsSpec
     ReduceModel ReduceSpec LoopProofs RespondProofs NumModel StencilModel StencilSpec StencilProofs IntgrProofs StencilLemmas ConcatProofs WindowModel SmoothModel SmoothSpec SmoothProofs SmoothView
     ViewProps EnvExample ReduceProps StencilProps WindowProps.
Import ListNotations.
Open Scope Z_scope.

(** smooth(var, axis, kernel) for a kernel of at least 3 weights and at most as many as there are points: the convolution of the
    data, continued by reflection at both ends, with the normalised kernel.  [direct] tells whether scipy adds up the products
    (as it does for small data); if it does not, the data and the weights have to be finite. *)
Theorem C38_smooth : forall env, env_ok env -> forall (junk : list Z -> num) MAX, 1 <= MAX -> forall direct (x : var axis num) D d a kernel,
  responds env x D -> Forall good_axis (var_axes x) -> nth_error (var_axes x) d = Some a ->
  3 <= zlen kernel <= axis_len a ->
  (direct = true \/ Forall finite (normalised kernel) /\ forall q, position (var_shape x) q -> finite (D q)) ->
  exists y, smooth env junk MAX direct x d kernel = Some y /\ var_axes y = var_axes x /\
    computes env y (fun q => convolution (axis_len a) (normalised kernel) (fun k => D (moved q d k)) (nth d q 0)).
Proof.
  intros env Henv junk MAX HMAX direct x D d a kernel Hx Hgood Ha HK Hfin. unfold smooth. destruct (Z.leb_spec (zlen kernel) 2); [lia|].
  unfold smooth_var. rewrite Ha. cbn [bind]. destruct (Z.ltb_spec (axis_len a) (zlen kernel)); [lia|]. eexists. split; [reflexivity|]. split; [reflexivity|].
  apply computed; [exact Henv|]. split; [exact (proj1 Hx)|]. cbn [var_source var_axes]. intros L HL. fold (normalised kernel).
  assert (zlen (normalised kernel) = zlen kernel) as Hl by (unfold normalised; apply zlen_map).
  destruct (smooth_view_spec env Henv junk MAX HMAX direct x D d a (normalised kernel) L Hx Hgood Ha ltac:(lia) Hfin HL) as (r & H1 & H2).
  exists r. split; [exact H1|]. exact H2.
Qed.
Print Assumptions C38_smooth.

Lemma sum_scaled (ws : list Qc) (c t : Qc) : t <> 0%Qc -> np_sum (map (fun w => mul (Fin (w / t)%Qc) (Fin c)) ws) = Fin (total ws / t * c)%Qc.
Proof.
  intros Ht. induction ws as [|w ws IH]; cbn [map np_sum fold_right total].
  - unfold zero. f_equal. change (Q2Qc 0) with 0%Qc. unfold Qcdiv. ring.
  - change (fold_right add zero (map (fun w0 => mul (Fin (w0 / t)%Qc) (Fin c)) ws)) with (np_sum (map (fun w0 => mul (Fin (w0 / t)%Qc) (Fin c)) ws)). rewrite IH. cbn [mul add]. f_equal.
    change (fold_right Qcplus (Q2Qc 0) ws) with (total ws). unfold Qcdiv. ring.
Qed.
Lemma np_sum_fins (ws : list Qc) : np_sum (map Fin ws) = Fin (total ws).
Proof. induction ws as [|w ws IH]; [reflexivity|]. cbn [map np_sum fold_right total]. change (fold_right add zero (map Fin ws)) with (np_sum (map Fin ws)). rewrite IH. reflexivity. Qed.
Lemma mirrored_inside N i : - N <= i < 2 * N -> 0 <= mirrored N i < N.
Proof. intros H. unfold mirrored. destruct (Z.ltb_spec i 0), (Z.leb_spec N i); lia. Qed.

(** where the data do not change along the axis, smoothing does not change them *)
Theorem C38_constant : forall env, env_ok env -> forall (junk : list Z -> num) MAX, 1 <= MAX -> forall direct (x : var axis num) D d a ws,
  responds env x D -> Forall good_axis (var_axes x) -> nth_error (var_axes x) d = Some a ->
  3 <= zlen ws <= axis_len a -> total ws <> Q2Qc 0 ->
  (direct = true \/ forall q, position (var_shape x) q -> finite (D q)) ->
  exists y E, smooth env junk MAX direct x d (map Fin ws) = Some y /\ var_axes y = var_axes x /\ computes env y E /\
    forall q, position (var_shape x) q -> finite (D q) -> (forall k, 0 <= k < axis_len a -> D (moved q d k) = D q) -> E q = D q.
Proof.
  intros env Henv junk MAX HMAX direct x D d a ws Hx Hgood Ha HK Ht Hfin.
  assert (normalised (map Fin ws) = map (fun w => Fin (w / total ws)%Qc) ws) as Hn.
  { unfold normalised. rewrite np_sum_fins, map_map. apply map_ext. intros w. now apply div_fin. }
  destruct (C38_smooth env Henv junk MAX HMAX direct x D d a (map Fin ws) Hx Hgood Ha) as (y & H1 & H2 & H3).
  - rewrite zlen_map. exact HK.
  - destruct Hfin as [Hd|Hd]; [now left|right]. split; [|exact Hd]. rewrite Hn. apply Forall_forall. intros v Hv. apply in_map_iff in Hv as (w & <- & _). eexists. reflexivity.
  - eexists y, _. split; [exact H1|]. split; [exact H2|]. split; [exact H3|]. cbv beta. intros q Hq [c Hc] Hk.
    assert (nth_error (var_shape x) d = Some (axis_len a)) as Hs by (unfold var_shape; now rewrite nth_error_map, Ha).
    pose proof (position_at _ _ _ _ Hq Hs) as Hqd. rewrite Hn. unfold convolution. rewrite zlen_map.
    rewrite Hc in Hk |- *. assert (0 <= (zlen ws - 1) / 2 <= zlen ws - 1) as Hh. { split; [apply Z.div_pos; lia|]. apply Z.div_le_upper_bound; lia. }
    transitivity (np_sum (map (fun w => mul (Fin (w / total ws)%Qc) (Fin c)) ws)).
    + f_equal. apply list_ext. intros i v. rewrite !elem_map. split.
      * intros (k & Hki & ->). apply elem_arange1 in Hki as [-> Hi]. exists (nth (Z.to_nat i) ws (Q2Qc 0)). split; [split; [lia|apply nth_error_nth'; unfold zlen in Hi; lia]|].
        rewrite Hk by (apply mirrored_inside; lia). f_equal. rewrite Z.add_0_l.
        erewrite nth_error_nth; [reflexivity|]. rewrite nth_error_map, (nth_error_nth' ws (Q2Qc 0)) by (unfold zlen in Hi; lia). reflexivity.
      * intros (w & Hw & ->). pose proof (elem_range _ _ _ Hw) as Hi. exists i. split; [apply elem_arange1; lia|]. rewrite Hk by (apply mirrored_inside; lia). f_equal.
        destruct Hw as [_ Hw]. symmetry. apply (nth_error_nth _ _ zero). rewrite nth_error_map, Hw. reflexivity.
    + rewrite sum_scaled by exact Ht. f_equal. rewrite <- (Qcmult_1_l c) at 2. f_equal. unfold Qcdiv. apply Qcmult_inv_r. exact Ht.
Qed.
Print Assumptions C38_constant.

(** at most two weights: the variable itself *)
Theorem C38_short : forall env junk MAX direct (x : var axis num) d kernel, zlen kernel <= 2 -> smooth env junk MAX direct x d kernel = Some x.
Proof. intros env junk MAX direct x d kernel H. unfold smooth. destruct (Z.leb_spec (zlen kernel) 2); [reflexivity|lia]. Qed.
Print Assumptions C38_short.
(** more weights than points: an error *)
Theorem C38_long : forall env junk MAX direct (x : var axis num) d a kernel, nth_error (var_axes x) d = Some a -> 2 < zlen kernel -> axis_len a < zlen kernel ->
  smooth env junk MAX direct x d kernel = None.
Proof.
  intros env junk MAX direct x d a kernel Ha H1 H2. unfold smooth. destruct (Z.leb_spec (zlen kernel) 2); [lia|]. unfold smooth_var. rewrite Ha. cbn [bind].
  destruct (Z.ltb_spec (axis_len a) (zlen kernel)); [reflexivity|lia].
Qed.
Print Assumptions C38_long.

(** 1, 2, 3 smoothed with 1, 2, 5: the reflected data are 1, 1, 2, 3, 3 *)
Definition three : list num := [num_of_Z 1; num_of_Z 2; num_of_Z 5].
Example C38_example :
  show (smooth env0 zs 1000 false line 0 three) [[0; 1; 2]] [[0]; [1]; [2]] = Some ([3], [Some (9 # 8); Some (3 # 2); Some (19 # 8)]%Q) /\
  show (smooth env0 zs 1000 false line 0 three) [[2]] [[0]] = Some ([1], [Some (19 # 8)]%Q) /\
  show (smooth env0 zs 2 false ramps 1 three) [[0; 1]; [0; 2]] [[0; 0]; [1; 1]] = Some ([2; 2], [Some (37 # 8); Some (85 # 4)]%Q).
Proof. split; [|split]; vm_compute; reflexivity. Qed.
Example C38_used : exists y E, smooth env0 zs 1000 false line 0 three = Some y /\ computes env0 y E /\ E [2] = Fin (Q2Qc (19 # 8)).
Proof.
  destruct (C38_smooth env0 env0_ok zs 1000 ltac:(lia) false line (fun q => num_of_Z (nth 0 q 0 + 1)) 0%nat lon3 three line_responds) as (y & H1 & _ & H2).
  - constructor; [exact lon3_good|constructor].
  - reflexivity.
  - vm_compute. split; discriminate.
  - right. split; [|intros q _; eexists; reflexivity]. repeat constructor; eexists; vm_compute; reflexivity.
  - eexists y, _. split; [exact H1|]. split; [exact H2|]. vm_compute. reflexivity.
Qed.
Definition level : var axis num := source [lon3] (fun _ => num_of_Z 4).
Example C38_constant_used : exists y E, smooth env0 zs 1000 false level 0 (map Fin [Q2Qc 1; Q2Qc 2; Q2Qc 5]) = Some y /\ computes env0 y E /\ E [0] = num_of_Z 4 /\ E [2] = num_of_Z 4.
Proof.
  destruct (C38_constant env0 env0_ok zs 1000 ltac:(lia) false level (fun _ => num_of_Z 4) 0%nat lon3 [Q2Qc 1; Q2Qc 2; Q2Qc 5]) as (y & E & H1 & _ & H2 & H3).
  - apply source_responds, lon3_separate.
  - constructor; [exact lon3_good|constructor].
  - reflexivity.
  - vm_compute. split; discriminate.
  - vm_compute. discriminate.
  - right. intros q _. eexists. reflexivity.
  - exists y, E. split; [exact H1|]. split; [exact H2|]. split; apply H3; try (constructor; [cbn; lia|constructor]); try (eexists; reflexivity); reflexivity.
Qed.
