(** C25, C26: reductions *)
From Coq Require Import ZArith List Bool Lia QArith_base Qcanon.
From Verif Require Import SortSpec IndexModel IndexSpec ArrModel ViewModel ViewSpec AxisModel AxisSpec VarOpsModel VarOpsSpec EnvExample
  NumModel ReduceModel ReduceSpec ReduceKinds StatProofs MeanKinds WeightProofs ArgProofs ReduceLemmas RespondProofs ViewProps.
Import ListNotations.
Open Scope Z_scope.

(** In all of these, [MAX] is the limit on the size of the parts in which the data are read
    (tools.MAX_ARRAY_SIZE): whatever it is, the result is the same, and relates every element of the
    result to the list of all the elements of x that are reduced to it.  The input may be any variable
    that answers requests for increasing indices; the result is again one (so it can be reduced again,
    sliced, ...).  If the input is in memory the result is computed at once, otherwise when asked for. *)

(** x.sum(axes) *)
Theorem C25_sum : forall env MAX junk x D indices, env_ok env -> 1 <= MAX -> responds env x D -> Forall good_axis (var_axes x) ->
  reducible x indices ->
  exists y, reduced env junk (sum_view env junk MAX) x indices = Some y /\
            reduces_to env x D indices y (fun l w => w = float_sum l).
Proof.
  exact (fun env MAX junk x D indices He HM Hx Hg Hr => made_var env He junk x D Hx D indices _ _ Hr
     (rel_sum env He MAX HM junk x D Hx Hg indices Hr)).
Qed.
Print Assumptions C25_sum.

(** x.min(axes), x.max(axes): NaN if there is a NaN *)
Theorem C25_min : forall env MAX junk x D indices, env_ok env -> 1 <= MAX -> responds env x D -> Forall good_axis (var_axes x) ->
  reducible x indices ->
  exists y, reduced env junk (min_view env junk MAX) x indices = Some y /\ reduces_to env x D indices y least.
Proof.
  exact (fun env MAX junk x D indices He HM Hx Hg Hr => made_var env He junk x D Hx D indices _ _ Hr
     (rel_min env He MAX HM junk x D Hx Hg indices Hr)).
Qed.
Print Assumptions C25_min.

Theorem C25_max : forall env MAX junk x D indices, env_ok env -> 1 <= MAX -> responds env x D -> Forall good_axis (var_axes x) ->
  reducible x indices ->
  exists y, reduced env junk (max_view env junk MAX) x indices = Some y /\ reduces_to env x D indices y greatest.
Proof.
  exact (fun env MAX junk x D indices He HM Hx Hg Hr => made_var env He junk x D Hx D indices _ _ Hr
     (rel_max env He MAX HM junk x D Hx Hg indices Hr)).
Qed.
Print Assumptions C25_max.

(** x.nanmin(axes), x.nanmax(axes): NaN only if all are NaN *)
Theorem C25_nanmin : forall env MAX junk x D indices, env_ok env -> 1 <= MAX -> responds env x D -> Forall good_axis (var_axes x) ->
  reducible x indices ->
  exists y, reduced env junk (nanmin_view env junk MAX) x indices = Some y /\ reduces_to env x D indices y nan_least.
Proof.
  exact (fun env MAX junk x D indices He HM Hx Hg Hr => made_var env He junk x D Hx D indices _ _ Hr
     (rel_nanmin env He MAX HM junk x D Hx Hg indices Hr)).
Qed.
Print Assumptions C25_nanmin.

Theorem C25_nanmax : forall env MAX junk x D indices, env_ok env -> 1 <= MAX -> responds env x D -> Forall good_axis (var_axes x) ->
  reducible x indices ->
  exists y, reduced env junk (nanmax_view env junk MAX) x indices = Some y /\ reduces_to env x D indices y nan_greatest.
Proof.
  exact (fun env MAX junk x D indices He HM Hx Hg Hr => made_var env He junk x D Hx D indices _ _ Hr
     (rel_nanmax env He MAX HM junk x D Hx Hg indices Hr)).
Qed.
Print Assumptions C25_nanmax.

(** x.mean(axes, weights=False) *)
Theorem C25_mean : forall env MAX junk x D indices, env_ok env -> 1 <= MAX -> responds env x D -> Forall good_axis (var_axes x) ->
  reducible x indices ->
  exists y, reduced env junk (mean_view env junk MAX) x indices = Some y /\ reduces_to env x D indices y float_mean.
Proof.
  exact (fun env MAX junk x D indices He HM Hx Hg Hr => made_var env He junk x D Hx D indices _ _ Hr
     (rel_mean env He MAX HM junk x D Hx Hg indices Hr)).
Qed.
Print Assumptions C25_mean.

(** x.variance(axes), x.stdev(axes): the formula E(x^2) - E(x)^2 used by the code gives the variance *)
Theorem C25_variance : forall env MAX junk x D indices, env_ok env -> 1 <= MAX -> responds env x D -> Forall good_axis (var_axes x) ->
  reducible x indices ->
  exists y, reduced env junk (variance_view env junk MAX) x indices = Some y /\ reduces_to env x D indices y float_variance.
Proof.
  exact (fun env MAX junk x D indices He HM Hx Hg Hr => made_var env He junk x D Hx D indices _ _ Hr
     (rel_variance env He MAX HM junk x D Hx Hg indices Hr)).
Qed.
Print Assumptions C25_variance.

Theorem C25_stdev : forall env MAX junk sqrt x D indices, env_ok env -> 1 <= MAX -> responds env x D -> Forall good_axis (var_axes x) ->
  reducible x indices -> sqrt NaN = NaN ->
  exists y, reduced env junk (sd_view env junk MAX sqrt) x indices = Some y /\ reduces_to env x D indices y (float_sd sqrt).
Proof.
  exact (fun env MAX junk sqrt x D indices He HM Hx Hg Hr Hs => made_var env He junk x D Hx D indices _ _ Hr
     (rel_sd env He MAX HM junk x D Hx Hg indices Hr sqrt Hs)).
Qed.
Print Assumptions C25_stdev.

(** x.nansum(axes, weights=False), unless both infinities have to be added (see C25_nansum_refuted) *)
Theorem C25_nansum_partial : forall env MAX junk x D indices, env_ok env -> 1 <= MAX -> responds env x D -> Forall good_axis (var_axes x) ->
  reducible x indices ->
  (forall k, position (dropped (reduced_flags (length (var_axes x)) indices) (var_shape x)) k ->
     summable (map D (fibre (reduced_flags (length (var_axes x)) indices) (var_shape x) k))) ->
  exists y, reduced env junk (nansum_view env junk MAX) x indices = Some y /\
            reduces_to env x D indices y (fun l w => w = float_sum (not_nans l)).
Proof.
  exact (fun env MAX junk x D indices He HM Hx Hg Hr Hs => made_var env He junk x D Hx D indices _ _ Hr
     (rel_nansum env He MAX HM junk x D Hx Hg indices Hr Hs)).
Qed.
Print Assumptions C25_nansum_partial.

(** x.nanmean(axes, weights=False), x.nanvariance(axes), x.nanstdev(axes) of data without infinities *)
Theorem C25_nanmean_partial : forall env MAX junk x D indices, env_ok env -> 1 <= MAX -> responds env x D -> Forall good_axis (var_axes x) ->
  reducible x indices -> (forall q, position (var_shape x) q -> D q <> PInf /\ D q <> MInf) ->
  exists y, reduced env junk (nanmean_view env junk MAX) x indices = Some y /\ reduces_to env x D indices y (statistic 1 average).
Proof.
  exact (fun env MAX junk x D indices He HM Hx Hg Hr Hm => made_var env He junk x D Hx D indices _ _ Hr
     (rel_nanmean env He MAX HM junk x D Hx Hg indices Hr Hm)).
Qed.
Print Assumptions C25_nanmean_partial.

Theorem C25_nanvariance_partial : forall env MAX junk x D indices, env_ok env -> 1 <= MAX -> responds env x D -> Forall good_axis (var_axes x) ->
  reducible x indices -> (forall q, position (var_shape x) q -> D q <> PInf /\ D q <> MInf) ->
  exists y, reduced env junk (nanvariance_view env junk MAX) x indices = Some y /\ reduces_to env x D indices y (statistic 2 variance).
Proof.
  exact (fun env MAX junk x D indices He HM Hx Hg Hr Hm => made_var env He junk x D Hx D indices _ _ Hr
     (rel_nanvariance env He MAX HM junk x D Hx Hg indices Hr Hm)).
Qed.
Print Assumptions C25_nanvariance_partial.

Theorem C25_nanstdev_partial : forall env MAX junk sqrt x D indices, env_ok env -> 1 <= MAX -> responds env x D -> Forall good_axis (var_axes x) ->
  reducible x indices -> (forall q, position (var_shape x) q -> D q <> PInf /\ D q <> MInf) -> sqrt NaN = NaN ->
  exists y, reduced env junk (nansd_view env junk MAX sqrt) x indices = Some y /\
            reduces_to env x D indices y (fun l w => exists v, statistic 2 variance l v /\ w = sqrt v).
Proof.
  exact (fun env MAX junk sqrt x D indices He HM Hx Hg Hr Hm Hs => made_var env He junk x D Hx D indices _ _ Hr
     (rel_nansd env He MAX HM junk x D Hx Hg indices Hr Hm sqrt Hs)).
Qed.
Print Assumptions C25_nanstdev_partial.

(** Weighted: the weights [w] are a variable on some of the reduced axes, in any order; every element of x
    is paired with the weight at its position on these axes. *)
Theorem C25_weighted_sum : forall env MAX junk x w D Dw indices along, env_ok env -> 1 <= MAX ->
  responds env x D -> responds env w Dw -> Forall good_axis (var_axes x) -> reducible x indices -> weights_along x w indices along ->
  exists y, weighted_var env junk (wsum_view env junk MAX) w x indices = Some y /\
            reduces_to env x (fun q => (D q, weight_at along Dw q)) indices y (fun l v => v = float_sum (map times l)).
Proof.
  exact (fun env MAX junk x w D Dw indices along He HM Hx Hw Hg Hr Ha => made_weighted env He junk x D Hx w _ indices along _ _ Hr Ha
     (rel_wsum env He MAX HM junk x D Hx Hg w Dw Hw indices along Hr Ha)).
Qed.
Print Assumptions C25_weighted_sum.

Theorem C25_weighted_nansum_partial : forall env MAX junk x w D Dw indices along, env_ok env -> 1 <= MAX ->
  responds env x D -> responds env w Dw -> Forall good_axis (var_axes x) -> reducible x indices -> weights_along x w indices along ->
  (forall k, position (dropped (reduced_flags (length (var_axes x)) indices) (var_shape x)) k ->
     summable (map times (map (fun q => (D q, weight_at along Dw q)) (fibre (reduced_flags (length (var_axes x)) indices) (var_shape x) k)))) ->
  exists y, weighted_var env junk (wnansum_view env junk MAX) w x indices = Some y /\
            reduces_to env x (fun q => (D q, weight_at along Dw q)) indices y (fun l v => v = float_sum (not_nans (map times l))).
Proof.
  exact (fun env MAX junk x w D Dw indices along He HM Hx Hw Hg Hr Ha Hs => made_weighted env He junk x D Hx w _ indices along _ _ Hr Ha
     (rel_wnansum env He MAX HM junk x D Hx Hg w Dw Hw indices along Hr Ha Hs)).
Qed.
Print Assumptions C25_weighted_nansum_partial.

(** The total weight is found from the weights alone, scaled by the number of elements that share a weight;
    it is the sum of the weights of all the elements. *)
Theorem C25_weighted_mean : forall env MAX junk x w D Dw indices along, env_ok env -> 1 <= MAX ->
  responds env x D -> responds env w Dw -> Forall good_axis (var_axes x) -> reducible x indices -> weights_along x w indices along ->
  (forall q, exists u, Dw q = Fin u) ->
  exists y, weighted_var env junk (wmean_view env junk MAX) w x indices = Some y /\
            reduces_to env x (fun q => (D q, weight_at along Dw q)) indices y float_wmean.
Proof.
  exact (fun env MAX junk x w D Dw indices along He HM Hx Hw Hg Hr Ha Hf => made_weighted env He junk x D Hx w _ indices along _ _ Hr Ha
     (rel_wmean env He MAX HM junk x D Hx Hg w Dw Hw indices along Hr Ha Hf)).
Qed.
Print Assumptions C25_weighted_mean.

Theorem C25_weighted_variance : forall env MAX junk x w D Dw indices along, env_ok env -> 1 <= MAX ->
  responds env x D -> responds env w Dw -> Forall good_axis (var_axes x) -> reducible x indices -> weights_along x w indices along ->
  (forall q, exists u, Dw q = Fin u) ->
  exists y, weighted_var env junk (wvariance_view env junk MAX) w x indices = Some y /\
            reduces_to env x (fun q => (D q, weight_at along Dw q)) indices y float_wvariance.
Proof.
  exact (fun env MAX junk x w D Dw indices along He HM Hx Hw Hg Hr Ha Hf => made_weighted env He junk x D Hx w _ indices along _ _ Hr Ha
     (rel_wvariance env He MAX HM junk x D Hx Hg w Dw Hw indices along Hr Ha Hf)).
Qed.
Print Assumptions C25_weighted_variance.

Theorem C25_weighted_nanmean_partial : forall env MAX junk x w D Dw indices along, env_ok env -> 1 <= MAX ->
  responds env x D -> responds env w Dw -> Forall good_axis (var_axes x) -> reducible x indices -> weights_along x w indices along ->
  (forall q, exists u, Dw q = Fin u) -> (forall q, position (var_shape x) q -> D q <> PInf /\ D q <> MInf) ->
  exists y, weighted_var env junk (wnanmean_view env junk MAX) w x indices = Some y /\
            reduces_to env x (fun q => (D q, weight_at along Dw q)) indices y wnanmean_spec.
Proof.
  exact (fun env MAX junk x w D Dw indices along He HM Hx Hw Hg Hr Ha Hf Hm => made_weighted env He junk x D Hx w _ indices along _ _ Hr Ha
     (rel_wnanmean env He MAX HM junk x D Hx Hg w Dw Hw indices along Hr Ha Hf Hm)).
Qed.
Print Assumptions C25_weighted_nanmean_partial.

(** without axes: one number for the whole variable (sum, max; the others alike) *)
Theorem C25_all : forall env MAX junk x D, env_ok env -> 1 <= MAX -> responds env x D -> Forall good_axis (var_axes x) ->
  var_axes x <> [] -> Forall (fun a => 0 < axis_len a) (var_axes x) ->
  (exists r, reduced_all env junk (sum_view env junk MAX) x = Some r /\ shape r = [] /\ val r [] = float_sum (map D (positions (var_shape x)))) /\
  (exists r, reduced_all env junk (mean_view env junk MAX) x = Some r /\ shape r = [] /\ float_mean (map D (positions (var_shape x))) (val r [])) /\
  (exists r, reduced_all env junk (min_view env junk MAX) x = Some r /\ shape r = [] /\ least (map D (positions (var_shape x))) (val r [])) /\
  (exists r, reduced_all env junk (max_view env junk MAX) x = Some r /\ shape r = [] /\ greatest (map D (positions (var_shape x))) (val r [])).
Proof.
  exact (fun env MAX junk x D He HM Hx Hg Hne Hp => conj
    (made_all env He junk x D Hx Hg D _ _ Hne Hp (rel_sum env He MAX HM junk x D Hx Hg)) (conj
    (made_all env He junk x D Hx Hg D _ _ Hne Hp (rel_mean env He MAX HM junk x D Hx Hg)) (conj
    (made_all env He junk x D Hx Hg D _ _ Hne Hp (rel_min env He MAX HM junk x D Hx Hg))
    (made_all env He junk x D Hx Hg D _ _ Hne Hp (rel_max env He MAX HM junk x D Hx Hg))))).
Qed.
Print Assumptions C25_all.

(** *** examples: a 2 x 3 table of numbers with a gap, read in parts of at most 2 elements *)
Definition obs (p : list Z) : num :=
  match p with
  | [0; 0] => num_of_Z 1 | [0; 1] => NaN | [0; 2] => num_of_Z 3
  | [1; 0] => num_of_Z 4 | [1; 1] => num_of_Z 5 | [1; 2] => num_of_Z 9 | _ => zero
  end.
Definition source (axes : list axis) (D : list Z -> num) : var axis num :=
  Var axes (GetView (fun v => Some (Arr (map zlen (vinds v)) (fun p => D (gather (vinds v) p))))).
Definition field : var axis num := source [lat2; lon3] obs.
Definition wlon (q : list Z) : num := match q with [0] => num_of_Z 1 | _ => num_of_Z 2 end.
Definition weight : var axis num := source [lon3] wlon.
Definition zs (_ : list Z) : num := zero.
Definition number (v : num) : option Q := match v with Fin q => Some (this q) | _ => None end.
Definition show (y : option (var axis num)) (inds ps : list (list Z)) : option (list Z * list (option Q)) :=
  match y with
  | Some y => option_map (fun r => (shape r, map (fun p => number (val r p)) ps)) (get (axis_ops env0) zs (view_of_inds (var_axes y) inds) y true true)
  | None => None
  end.

Lemma source_responds axes D : separate axes -> responds env0 (source axes D) D.
Proof. intros H. split; [exact H|]. intros inds Hi. cbn [source var_axes]. eexists. split; [reflexivity|]. split; reflexivity. Qed.
Lemma field_responds : responds env0 field obs.
Proof. apply source_responds. exact (proj2 (blocks_getable env0)). Qed.
Lemma weight_responds : responds env0 weight wlon.
Proof. apply source_responds. intros [|i] [|j] a b Ha Hb Hne; cbn in Ha, Hb; try congruence; try (destruct i; discriminate); try (destruct j; discriminate). Qed.
Lemma field_good : Forall good_axis (var_axes field).
Proof. exact (proj2 (blocks_holds env0)). Qed.
Lemma field_reducible : reducible field [1%nat].
Proof. split; [discriminate|]. split; [repeat constructor; now intros []|]. constructor; [|constructor]. exists lon3. split; reflexivity. Qed.
Lemma weight_ok : weights_along field weight [1%nat] [1%nat].
Proof. split; [repeat constructor; now intros []|]. repeat constructor. Qed.
Lemma obs_measured q : position (var_shape field) q -> obs q <> PInf /\ obs q <> MInf.
Proof.
  intros H. inversion H as [|? x ? q' Hx H']; subst. inversion H' as [|? y ? q'' Hy H'']; subst. inversion H''; subst.
  clear - Hx Hy. assert (0 <= x < 2) by exact Hx. assert (0 <= y < 3) by exact Hy. clear Hx Hy.
  assert (x = 0 \/ x = 1) as [-> | ->] by lia; assert (y = 0 \/ y = 1 \/ y = 2) as [-> | [-> | ->]] by lia; split; discriminate.
Qed.

Example C25_example :
  responds env0 field obs /\ Forall good_axis (var_axes field) /\ reducible field [1%nat] /\
  show (reduced env0 zs (sum_view env0 zs 2) field [1%nat]) [[0; 1]] [[0]; [1]] = Some ([2], [None; Some 18%Q]) /\
  show (reduced env0 zs (nanmean_view env0 zs 2) field [1%nat]) [[1; 0]] [[0]; [1]] = Some ([2], [Some 6%Q; Some 2%Q]) /\
  show (reduced env0 zs (max_view env0 zs 2) field [1%nat]) [[1]] [[0]] = Some ([1], [Some 9%Q]) /\
  show (reduced env0 zs (nanmin_view env0 zs 2) field [1%nat]) [[0; 1]] [[0]; [1]] = Some ([2], [Some 1%Q; Some 4%Q]) /\
  show (reduced env0 zs (variance_view env0 zs 2) field [1%nat]) [[1]] [[0]] = Some ([1], [Some 7%Q]) /\
  show (reduced env0 zs (nanvariance_view env0 zs 2) field [1%nat]) [[0; 1]] [[0]; [1]] = Some ([2], [Some 2%Q; Some 7%Q]) /\
  weights_along field weight [1%nat] [1%nat] /\ responds env0 weight wlon /\
  show (weighted_var env0 zs (wmean_view env0 zs 2) weight field [1%nat]) [[1]] [[0]] = Some ([1], [Some (32 # 5)%Q]) /\
  show (weighted_var env0 zs (wnanmean_view env0 zs 2) weight field [1%nat]) [[0]] [[0]] = Some ([1], [Some (7 # 3)%Q]).
Proof.
  split; [apply field_responds|]. split; [apply field_good|]. split; [apply field_reducible|].
  do 6 (split; [vm_compute; reflexivity|]). split; [apply weight_ok|]. split; [apply weight_responds|].
  split; vm_compute; reflexivity.
Qed.

(** Reading the same element of a reduction several times can give wrong numbers: the parts in which the
    data are read are put in their place by coordinate, so all go to the first place of this coordinate.
    For the sum over lon at lat = 20, 20 and parts of 2 elements: 36, 0 instead of 18, 18. *)
Theorem C25_repeated_refuted : exists env MAX junk x D indices y D' l r,
  env_ok env /\ 1 <= MAX /\ responds env x D /\ Forall good_axis (var_axes x) /\ reducible x indices /\
  reduced env junk (sum_view env junk MAX) x indices = Some y /\ delivers env junk y D' /\
  in_range 2 l /\ map axis_len (var_axes y) = [2] /\
  get (axis_ops env) junk (view_of_inds (var_axes y) [l]) y true true = Some r /\ val r [0] <> D' [znth l 0].
Proof.
  destruct (C25_sum env0 2 zs field obs [1%nat] env0_ok ltac:(lia) field_responds field_good field_reducible) as (y & Hy & Hax & D' & Hr & Hd & HP).
  exists env0, 2, zs, field, obs, [1%nat], y, D', [1; 1].
  destruct (get (axis_ops env0) zs (view_of_inds (var_axes y) [[1; 1]]) y true true) as [r|] eqn:E.
  2:{ exfalso. assert (show (reduced env0 zs (sum_view env0 zs 2) field [1%nat]) [[1; 1]] [[0]] = Some ([2], [Some 36%Q])) as H by (vm_compute; reflexivity).
      rewrite Hy in H. unfold show in H. rewrite E in H. discriminate. }
  exists r. split; [apply env0_ok|]. split; [lia|]. split; [apply field_responds|]. split; [apply field_good|]. split; [apply field_reducible|].
  split; [exact Hy|]. split; [apply Hd|]. split; [repeat constructor; lia|]. split; [rewrite Hax; reflexivity|]. split; [reflexivity|].
  assert (show (reduced env0 zs (sum_view env0 zs 2) field [1%nat]) [[1; 1]] [[0]] = Some ([2], [Some 36%Q])) as H by (vm_compute; reflexivity).
  rewrite Hy in H. unfold show in H. rewrite E in H. cbn [option_map map] in H. injection H as _ H.
  assert (number (D' [1]) = Some 18%Q) as H'.
  { rewrite (HP [1]); [vm_compute; reflexivity|]. unfold var_shape. rewrite Hax. repeat constructor; vm_compute; congruence. }
  change (znth [1; 1] 0) with 1. intros E'. rewrite E', H' in H. discriminate.
Qed.
Print Assumptions C25_repeated_refuted.

(** nansum with both infinities: +inf and -inf in one part give NaN, which counts as 0 when the parts are
    added: the result depends on the size of the parts.  -inf, inf, 1 give 1 in parts of 2 elements, 0 at once. *)
Definition infs (q : list Z) : num := match q with [0] => MInf | [1] => PInf | _ => num_of_Z 1 end.
Definition show_all (y : option (var axis num)) : option (option Q) :=
  match y with Some y => option_map (fun r => number (val r [])) (var_get env0 zs y) | None => None end.
Lemma show_all_eq y n : show_all y = Some n -> exists x r, y = Some x /\ var_get env0 zs x = Some r /\ number (val r []) = n.
Proof.
  unfold show_all. destruct y as [x|]; [|discriminate]. destruct (var_get env0 zs x) as [r|] eqn:E; [|discriminate]. cbn. intros H. injection H as H. eauto.
Qed.
Theorem C25_nansum_refuted : exists env junk x D indices MAX MAX',
  env_ok env /\ 1 <= MAX /\ 1 <= MAX' /\ responds env x D /\ Forall good_axis (var_axes x) /\ reducible x indices /\
  exists y y' r r', reduced env junk (nansum_view env junk MAX) x indices = Some y /\ reduced env junk (nansum_view env junk MAX') x indices = Some y' /\
    var_get env junk y = Some r /\ var_get env junk y' = Some r' /\ val r [] <> val r' [].
Proof.
  exists env0, zs, (source [lon3] infs), infs, [0%nat], 2, 3. split; [apply env0_ok|]. split; [lia|]. split; [lia|].
  split; [apply source_responds; exact (proj1 weight_responds)|]. split; [pose proof field_good as H; inversion H; assumption|].
  split. { split; [discriminate|]. split; [repeat constructor; now intros []|]. constructor; [|constructor]. exists lon3. split; reflexivity. }
  destruct (show_all_eq (reduced env0 zs (nansum_view env0 zs 2) (source [lon3] infs) [0%nat]) (Some 1%Q)) as (y & r & H1 & H2 & H3); [vm_compute; reflexivity|].
  destruct (show_all_eq (reduced env0 zs (nansum_view env0 zs 3) (source [lon3] infs) [0%nat]) (Some 0%Q)) as (y' & r' & H1' & H2' & H3'); [vm_compute; reflexivity|].
  exists y, y', r, r'. repeat (split; [assumption|]). intros E. rewrite E, H3' in H3. discriminate.
Qed.
Print Assumptions C25_nansum_refuted.

(** C26: x.argmax(axis), x.argmin(axis) where the axis is short enough to be read in one part together
    with all the axes after it: the first position of an extreme value, or of a NaN if there is one *)
Theorem C26_argmax_partial : forall env MAX junk junkz x D index a, env_ok env -> 1 <= MAX -> responds env x D -> Forall good_axis (var_axes x) ->
  nth_error (var_axes x) index = Some a -> 0 < axis_len a -> prod (map axis_len (skipn index (var_axes x))) <= MAX ->
  exists y, arg_var env (argmax_view env junk MAX junkz) x index = Some y /\ best_positions env greater x D index y.
Proof.
  exact (fun env MAX junk junkz x D index a He HM Hx Hg Ha Hl Hf => made_arg env He MAX HM junk x D Hx Hg greater np_argmax junkz index a argmax_first Ha Hl Hf).
Qed.
Print Assumptions C26_argmax_partial.

Theorem C26_argmin_partial : forall env MAX junk junkz x D index a, env_ok env -> 1 <= MAX -> responds env x D -> Forall good_axis (var_axes x) ->
  nth_error (var_axes x) index = Some a -> 0 < axis_len a -> prod (map axis_len (skipn index (var_axes x))) <= MAX ->
  exists y, arg_var env (argmin_view env junk MAX junkz) x index = Some y /\ best_positions env ltb x D index y.
Proof.
  exact (fun env MAX junk junkz x D index a He HM Hx Hg Ha Hl Hf => made_arg env He MAX HM junk x D Hx Hg ltb np_argmin junkz index a argmin_first Ha Hl Hf).
Qed.
Print Assumptions C26_argmin_partial.

Definition showz (y : option (var axis Z)) (ps : list (list Z)) : option (list Z * list Z) :=
  match y with Some y => option_map (fun r => (shape r, map (val r) ps)) (var_get env0 (fun _ => 0) y) | None => None end.
Example C26_example :
  prod (map axis_len (skipn 1 (var_axes field))) = 3 /\
  showz (arg_var env0 (argmax_view env0 zs 3 0) field 1) [[0]; [1]] = Some ([2], [1; 2]) /\
  showz (arg_var env0 (argmin_view env0 zs 100 0) field 0) [[0]; [1]; [2]] = Some ([3], [0; 0; 0]).
Proof. split; [reflexivity|]. split; vm_compute; reflexivity. Qed.

(** If the axis is read in several parts every part overwrites the result of the parts before it with a
    position counted from its own beginning: for 4 5 9, read as 4 5 | 9, argmax is 0 instead of 2. *)
Theorem C26_argmax_refuted : exists env MAX junk junkz x D index a y r, env_ok env /\ 1 <= MAX /\ responds env x D /\ Forall good_axis (var_axes x) /\
  nth_error (var_axes x) index = Some a /\ 0 < axis_len a /\
  arg_var env (argmax_view env junk MAX junkz) x index = Some y /\ var_get env (fun _ => 0) y = Some r /\ shape r = [2] /\
  val r [1] = 0 /\ first_best greater (axis_len a) (fun t => D (along_axis [1] index t)) 2.
Proof.
  assert (showz (arg_var env0 (argmax_view env0 zs 2 0) field 1) [[1]] = Some ([2], [0])) as H by (vm_compute; reflexivity).
  unfold showz in H. destruct (arg_var env0 (argmax_view env0 zs 2 0) field 1) as [y|] eqn:Ey; [|discriminate].
  destruct (var_get env0 (fun _ => 0) y) as [r|] eqn:Er; [|discriminate]. cbn [option_map map] in H. injection H as Hs Hv.
  exists env0, 2, zs, 0, field, obs, 1%nat, lon3, y, r. split; [apply env0_ok|]. split; [lia|]. split; [apply field_responds|]. split; [apply field_good|].
  split; [reflexivity|]. split; [reflexivity|]. split; [exact Ey|]. split; [exact Er|]. split; [exact Hs|]. split; [exact Hv|].
  split; [cbn; lia|]. right. change (axis_len lon3) with 3.
  split; [|split]; intros u Hu; (assert (u = 0 \/ u = 1 \/ u = 2) as [-> | [-> | ->]] by lia); try discriminate; try lia; vm_compute; reflexivity.
Qed.
Print Assumptions C26_argmax_refuted.
