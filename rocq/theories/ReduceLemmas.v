(** From the computed data to the variables handed to the user. *)
From Coq Require Import ZArith List Bool Lia QArith_base QArith Qcanon Field.
From Verif Require Import SortSpec IndexModel IndexSpec IndexProofs ArrModel ArrProofs ViewModel ViewSpec ViewProofs AxisModel AxisSpec AxisProofs
     VarOpsModel VarOpsSpec VarOpsProofs NumModel ReduceModel ReduceSpec NumProofs FibreProofs LoopProofs RespondProofs ReduceProofs ReduceKinds StatProofs MeanKinds WeightProofs ArgProofs.
Import ListNotations.
Open Scope Z_scope.

Lemma relates_weaken {V U W} (x : var axis V) (D : list Z -> U) indices (f : view axis -> option (arr W)) (P Q : list U -> W -> Prop) :
  (forall l w, P l w -> Q l w) -> relates x D indices f P -> relates x D indices f Q.
Proof. intros H (F & H1 & H2). exists F. split; [exact H1|]. intros k Hk. apply H. now apply H2. Qed.

Lemma sd_statistic sqrt l v : sqrt NaN = NaN -> statistic 2 variance l v -> sd_of sqrt v = sqrt v.
Proof.
  intros Hs ->. destruct (Nat.leb_spec 2 (length (numbers l))) as [H2|H2]; [apply sd_of_fin; now apply variance_nonneg|]. reflexivity.
Qed.

Section Made.
Context (env : axenv) (Henv : env_ok env) (MAX : Z) (HMAX : 1 <= MAX) (junk : list Z -> num).
Context (x : var axis num) (D : list Z -> num) (Hx : responds env x D) (Hgood : Forall good_axis (var_axes x)).

Lemma reduces_to_load {U W} (D1 : list Z -> U) indices (y : var axis W) P junkw : reduces_to env x D1 indices y P ->
  exists y', load env y junkw = Some y' /\ reduces_to env x D1 indices y' P.
Proof.
  intros (Hax & D' & Hr & _ & HP). destruct (load_responds env Henv junkw y D' Hr) as (y' & Hl & Hax' & Hg).
  exists y'. split; [exact Hl|]. split; [now rewrite Hax'|]. exists D'. pose proof (getable_responds env y' D' Hg) as Hr'.
  split; [exact Hr'|]. split; [intros j; now apply (responds_delivers env Henv j)|].
  intros k Hk. apply HP. unfold var_shape in *. now rewrite <- Hax'.
Qed.

Lemma made_var {U} (D1 : list Z -> U) indices (f : var axis num -> list nat -> view axis -> option (arr num)) P :
  reducible x indices -> relates x D1 indices (f x indices) P ->
  exists y, reduced env junk f x indices = Some y /\ reduces_to env x D1 indices y P.
Proof.
  intros Hred Hrel. destruct (made env Henv x D1 indices (f x indices) P (proj1 Hx) Hred Hrel) as (y & Hy & Hto).
  unfold reduced. rewrite Hy. unfold if_in_memory. destruct (var_source x); [|now exists y|now exists y].
  exact (reduces_to_load D1 indices y P junk Hto).
Qed.

Lemma all_reducible : var_axes x <> [] -> Forall (fun a => 0 < axis_len a) (var_axes x) -> reducible x (seq 0 (length (var_axes x))).
Proof.
  intros Hne Hp. split; [now destruct (var_axes x)|]. split; [apply seq_NoDup|]. apply Forall_forall. intros i Hi. apply in_seq in Hi.
  destruct (nth_error (var_axes x) i) as [a|] eqn:E; [|apply nth_error_None in E; lia]. exists a. split; [reflexivity|].
  rewrite Forall_forall in Hp. apply Hp. eapply nth_error_In, E.
Qed.
Lemma dropped_all {A} n (l : list A) : length l = n -> dropped (gone_axes n (seq 0 n)) l = [].
Proof.
  intros <-. assert (gone_axes (length l) (seq 0 (length l)) = map (fun _ => true) l) as ->.
  { apply nth_error_ext'. intros i. rewrite nth_error_gone, nth_error_map. destruct (Nat.ltb_spec i (length l)) as [H|H].
    - assert (existsb (Nat.eqb i) (seq 0 (length l)) = true) as -> by (apply existsb_In, in_seq; lia).
      destruct (nth_error l i) eqn:E; [reflexivity|]. apply nth_error_None in E. lia.
    - apply nth_error_None in H. now rewrite H. }
  induction l; [reflexivity|assumption].
Qed.
Lemma fibre_all s : fibre (gone_axes (length s) (seq 0 (length s))) s [] = positions s.
Proof.
  unfold fibre. assert (forall q, In q (positions s) -> zlist_eqb (dropped (gone_axes (length s) (seq 0 (length s))) q) [] = true) as H.
  { intros q Hq. rewrite dropped_all; [reflexivity|]. apply In_elem in Hq as (k & Hk). apply ChunkProofs.product_elem_Forall2, Forall2_len in Hk. now rewrite map_length in Hk. }
  revert H. generalize (positions s). intros l H. induction l as [|q l IH]; [reflexivity|]. cbn [filter]. rewrite (H q (or_introl eq_refl)), IH by (intros; apply H; now right).
  reflexivity.
Qed.
Lemma made_all {U} (D1 : list Z -> U) (f : var axis num -> list nat -> view axis -> option (arr num)) P :
  var_axes x <> [] -> Forall (fun a => 0 < axis_len a) (var_axes x) ->
  (forall indices, reducible x indices -> relates x D1 indices (f x indices) P) ->
  exists r, reduced_all env junk f x = Some r /\ shape r = [] /\ P (map D1 (positions (var_shape x))) (val r []).
Proof.
  intros Hne Hp Hrel. pose proof (all_reducible Hne Hp) as Hred.
  destruct (made env Henv x D1 _ _ P (proj1 Hx) Hred (Hrel _ Hred)) as (y & Hy & Hax & D' & Hr & _ & HP).
  unfold reduced_all. rewrite Hy. destruct (responds_get env Henv junk y D' Hr) as (r & Hg & Hs & Hv). exists r. split; [exact Hg|].
  change (reduced_flags (length (var_axes x)) (seq 0 (length (var_axes x)))) with (gone_axes (length (var_axes x)) (seq 0 (length (var_axes x)))) in *.
  rewrite dropped_all in Hax by reflexivity. unfold var_shape in Hs, Hv, HP. rewrite Hax in Hs, Hv, HP. cbn [map] in *. split; [exact Hs|].
  rewrite Hv by constructor. specialize (HP [] ltac:(constructor)).
  assert (length (var_axes x) = length (map axis_len (var_axes x))) as El by (now rewrite map_length).
  rewrite El, fibre_all in HP. exact HP.
Qed.

(** *** the kinds *)
Section Kinds.
Context (indices : list nat) (Hred : reducible x indices).
Notation fibx := (fib x D indices).
Lemma rel {W} f (F : list Z -> W) (P : list num -> W -> Prop) : answer x indices f F ->
  (forall k, position (dropped (gone_axes (length (var_axes x)) indices) (var_shape x)) k -> P (fibx k) (F k)) -> relates x D indices f P.
Proof. intros H1 H2. exists F. split; assumption. Qed.

Lemma rel_sum : relates x D indices (sum_view env junk MAX x indices) (fun l w => w = float_sum l).
Proof. eapply rel; [now apply (sum_answer env Henv MAX HMAX junk x D)|]. intros k Hk. cbv beta. now rewrite float_sum_eq. Qed.
Lemma rel_min : relates x D indices (min_view env junk MAX x indices) least.
Proof. eapply rel; [now apply (min_answer env Henv MAX HMAX junk x D)|]. intros k Hk. apply amin_least. now apply (fibre_ne junk x D indices Hred). Qed.
Lemma rel_max : relates x D indices (max_view env junk MAX x indices) greatest.
Proof. eapply rel; [now apply (max_answer env Henv MAX HMAX junk x D)|]. intros k Hk. apply amax_greatest. now apply (fibre_ne junk x D indices Hred). Qed.
Lemma rel_nanmin : relates x D indices (nanmin_view env junk MAX x indices) nan_least.
Proof. eapply rel; [now apply (nanmin_answer env Henv MAX HMAX junk x D)|]. intros k Hk. apply nanmin_least. Qed.
Lemma rel_nanmax : relates x D indices (nanmax_view env junk MAX x indices) nan_greatest.
Proof. eapply rel; [now apply (nanmax_answer env Henv MAX HMAX junk x D)|]. intros k Hk. apply nanmax_greatest. Qed.

Lemma fin_ne l qs : l = map Fin qs -> l <> [] -> qs <> [].
Proof. intros -> H ->. now apply H. Qed.
Lemma rel_mean : relates x D indices (mean_view env junk MAX x indices) float_mean.
Proof.
  eapply rel; [now apply (mean_answer env Henv MAX HMAX junk x D)|]. intros k Hk. cbv beta. split; [now rewrite float_sum_eq|].
  intros qs E. pose proof (fin_ne _ _ E (fibre_ne junk x D indices Hred k Hk)) as Hne. rewrite E.
  replace (zlen (map Fin qs)) with (zlen qs) by (unfold zlen; now rewrite map_length). now apply mean_fin.
Qed.
Lemma rel_variance : relates x D indices (variance_view env junk MAX x indices) float_variance.
Proof.
  eapply rel; [now apply (variance_answer env Henv MAX HMAX junk x D)|]. intros k Hk. cbv beta.
  intros qs E. pose proof (fin_ne _ _ E (fibre_ne junk x D indices Hred k Hk)) as Hne. cbv zeta. rewrite E.
  replace (zlen (map Fin qs)) with (zlen qs) by (unfold zlen; now rewrite map_length). now apply variance_fin.
Qed.
Lemma rel_sd sqrt : sqrt NaN = NaN -> relates x D indices (sd_view env junk MAX sqrt x indices) (float_sd sqrt).
Proof.
  intros Hs. eapply rel; [apply (answer_map x indices); now apply (variance_answer env Henv MAX HMAX junk x D)|]. intros k Hk. cbv beta.
  intros qs E. pose proof (fin_ne _ _ E (fibre_ne junk x D indices Hred k Hk)) as Hne. cbv zeta. rewrite E.
  replace (zlen (map Fin qs)) with (zlen qs) by (unfold zlen; now rewrite map_length).
  pose proof (variance_fin qs Hne) as Hv. cbv zeta in Hv. rewrite Hv. destruct (Nat.leb_spec 2 (length qs)).
  - apply sd_of_fin. now apply variance_nonneg.
  - unfold sd_of. cbn. exact Hs.
Qed.

Hypothesis Hsum : forall k, position (dropped (gone_axes (length (var_axes x)) indices) (var_shape x)) k -> summable (fibx k).
Lemma rel_nansum : relates x D indices (nansum_view env junk MAX x indices) (fun l w => w = float_sum (not_nans l)).
Proof.
  eapply rel; [now apply (nansum_answer env Henv MAX HMAX junk x D)|]. intros k Hk. cbv beta. rewrite <- float_sum_eq. unfold np_nansum.
  induction (fibx k) as [|v l IH]; [reflexivity|]. unfold not_nans in *. cbn [map np_sum fold_right filter]. unfold np_sum in IH. rewrite IH.
  destruct v; cbn [nan_to_zero is_nan negb np_sum fold_right]; try reflexivity. apply add_0_l.
Qed.
End Kinds.

Section Measured.
Context (indices : list nat) (Hred : reducible x indices)
  (Hm : forall q, position (var_shape x) q -> D q <> PInf /\ D q <> MInf).
Lemma fib_measured k : position (dropped (gone_axes (length (var_axes x)) indices) (var_shape x)) k -> measured (fib x D indices k).
Proof.
  intros Hk. assert (forall v, In v (fib x D indices k) -> v <> PInf /\ v <> MInf) as H.
  { intros v Hv. unfold fib in Hv. apply in_map_iff in Hv as (q & <- & Hq). apply Hm.
    rewrite fibre_fibl in Hq; [|unfold var_shape; rewrite length_gone, map_length; reflexivity|exact Hk].
    eapply fibl_positions; [|exact Hk|exact Hq]. unfold var_shape. now rewrite length_gone, map_length. }
  split; intros Hi; apply H in Hi; tauto.
Qed.
Lemma rel_nanmean : relates x D indices (nanmean_view env junk MAX x indices) (statistic 1 average).
Proof.
  eapply rel; [apply (nanmean_answer env Henv MAX HMAX junk x D Hx Hgood indices Hred)|].
  - intros k Hk. now apply measured_summable, fib_measured.
  - intros k Hk. apply nanmean_measured. now apply fib_measured.
Qed.
Lemma rel_nanvariance : relates x D indices (nanvariance_view env junk MAX x indices) (statistic 2 variance).
Proof.
  eapply rel; [apply (nanvariance_answer env Henv MAX HMAX junk x D Hx Hgood indices Hred)|].
  - intros k Hk. now apply measured_summable, fib_measured.
  - intros k Hk. apply nanvariance_measured. now apply fib_measured.
Qed.
Lemma rel_nansd sqrt : sqrt NaN = NaN -> relates x D indices (nansd_view env junk MAX sqrt x indices)
  (fun l w => exists v, statistic 2 variance l v /\ w = sqrt v).
Proof.
  intros Hs. eapply rel; [apply (answer_map x indices); apply (nanvariance_answer env Henv MAX HMAX junk x D Hx Hgood indices Hred)|].
  - intros k Hk. now apply measured_summable, fib_measured.
  - intros k Hk. cbv beta. pose proof (nanvariance_measured _ (fib_measured k Hk)) as Hv. eexists. split; [exact Hv|].
    refine (sd_statistic sqrt _ _ Hs Hv).
Qed.
End Measured.

(** *** weighted kinds *)
Section Weights.
Context (w : var axis num) (Dw : list Z -> num) (Hw : responds env w Dw) (indices along : list nat) (Hred : reducible x indices)
        (Hal : weights_along x w indices along).
Notation DD := (fun q => (D q, weight_at along Dw q)).
Notation fibw := (fib x DD indices).
Notation wpos k := (position (dropped (gone_axes (length (var_axes x)) indices) (var_shape x)) k).

Lemma relw {W} f (F : list Z -> W) (P : list (num * num) -> W -> Prop) : answer x indices f F ->
  (forall k, wpos k -> P (fibw k) (F k)) -> relates x DD indices f P.
Proof. intros H1 H2. exists F. split; assumption. Qed.

Lemma rel_wsum : relates x DD indices (wsum_view env junk MAX x w indices) (fun l v => v = float_sum (map times l)).
Proof.
  eapply relw; [apply (wsum_answer env Henv MAX HMAX junk x w D Dw Hx Hw Hgood indices along Hred Hal)|].
  intros k Hk. cbv beta. now rewrite float_sum_eq.
Qed.

Lemma nansum_not_nans l : np_nansum l = np_sum (not_nans l).
Proof.
  unfold np_nansum. induction l as [|v l IH]; [reflexivity|]. unfold not_nans in *. cbn [map np_sum fold_right filter]. unfold np_sum in IH. rewrite IH.
  destruct v; cbn [nan_to_zero is_nan negb np_sum fold_right]; try reflexivity. apply add_0_l.
Qed.
Lemma rel_wnansum : (forall k, wpos k -> summable (map times (fibw k))) ->
  relates x DD indices (wnansum_view env junk MAX x w indices) (fun l v => v = float_sum (not_nans (map times l))).
Proof.
  intros Hs. eapply relw; [exact (wnan_pre env Henv MAX HMAX junk x w D Dw Hx Hw Hgood indices along Hred Hal (fun v => v) Hs)|].
  intros k Hk. cbv beta. rewrite nansum_not_nans, float_sum_eq. reflexivity.
Qed.

Context (Hfin : forall q, exists u, Dw q = Fin u).
Let wq := fun q => match Dw q with Fin u => u | _ => Q2Qc 0 end.
Lemma wq_fin q : Dw q = Fin (wq q).
Proof. unfold wq. destruct (Hfin q) as [u ->]. reflexivity. Qed.

Lemma times_fins qs : map times (fins qs) = map Fin (map (fun '(q, u) => (q * u)%Qc) qs).
Proof. unfold fins. induction qs as [|[q u] l IH]; [reflexivity|]. cbn [map fst snd times mul]. now rewrite IH. Qed.
Lemma snd_fins qs : map snd (fins qs) = map Fin (map snd qs).
Proof. unfold fins. induction qs as [|[q u] l IH]; [reflexivity|]. cbn [map fst snd times mul]. now rewrite IH. Qed.

Lemma wmean_fin qs : total_weight qs <> Q2Qc 0 ->
  div (np_sum (map times (fins qs))) (np_sum (map snd (fins qs))) = Fin (weighted_average qs).
Proof. intros Ht. rewrite times_fins, snd_fins, !np_sum_fin, div_fin by exact Ht. reflexivity. Qed.
Lemma rel_wmean : relates x DD indices (wmean_view env junk MAX x w indices) float_wmean.
Proof.
  eapply relw.
  - exact (answer_zip x indices _ _ _ _ div (wsum_answer env Henv MAX HMAX junk x w D Dw Hx Hw Hgood indices along Hred Hal)
      (weights_answer env Henv MAX HMAX junk x w D Dw Hx Hw Hgood indices along Hred Hal wq wq_fin)).
  - intros k Hk. cbv beta. split; [now rewrite !float_sum_eq|]. intros qs -> Ht. now apply wmean_fin.
Qed.

Lemma wdeviations m l : total (map (fun '(q, u) => u * ((q - m) * (q - m)))%Qc l) =
  (total (map (fun '(q, u) => q * q * u) l) - (m + m) * total (map (fun '(q, u) => q * u) l) + total_weight l * (m * m))%Qc.
Proof.
  unfold total_weight. induction l as [|[q u] l IH]; [unfold total; cbn [map fold_right]; change (Q2Qc 0) with 0%Qc; ring|].
  unfold total in *. cbn [map fold_right snd]. rewrite IH. ring.
Qed.
Lemma wvariance_eq l : total_weight l <> Q2Qc 0 ->
  weighted_variance l = ((total (map (fun '(q, u) => q * q * u) l) - total (map (fun '(q, u) => q * u) l) * total (map (fun '(q, u) => q * u) l) / total_weight l)
     / (total_weight l - Q2Qc 1))%Qc.
Proof.
  intros Ht. unfold weighted_variance. f_equal. rewrite wdeviations. unfold weighted_average. field. exact Ht.
Qed.
Lemma wsq_fins qs : map (fun vw => mul (mul (fst vw) (fst vw)) (snd vw)) (fins qs) = map Fin (map (fun '(q, u) => (q * q * u)%Qc) qs).
Proof. unfold fins. induction qs as [|[q u] l IH]; [reflexivity|]. cbn [map fst snd times mul]. now rewrite IH. Qed.
Lemma rel_wvariance : relates x DD indices (wvariance_view env junk MAX x w indices) float_wvariance.
Proof.
  pose proof (wsum_answer env Henv MAX HMAX junk x w D Dw Hx Hw Hgood indices along Hred Hal) as A1.
  pose proof (wsumsq_answer env Henv MAX HMAX junk x w D Dw Hx Hw Hgood indices along Hred Hal) as A2.
  pose proof (weights_answer env Henv MAX HMAX junk x w D Dw Hx Hw Hgood indices along Hred Hal wq wq_fin) as A3.
  pose proof (answer_zip x indices _ _ _ _ pair A1 A3) as A13.
  pose proof (answer_zip x indices _ _ _ _ (fun x2 '(x, W) => div (sub x2 (div (mul x x) W)) (sub W (num_of_Z 1))) A2 A13) as A.
  eapply (relw _ (fun k => div (sub (np_sum (map (fun vw => mul (mul (fst vw) (fst vw)) (snd vw)) (fibw k)))
      (div (mul (np_sum (map times (fibw k))) (np_sum (map times (fibw k)))) (np_sum (map snd (fibw k))))) (sub (np_sum (map snd (fibw k))) (num_of_Z 1)))).
  - intros L HL. destruct (A L HL) as (r & Hr & Hv). exists r. split; [|exact Hv]. rewrite <- Hr. unfold wvariance_view.
    destruct (wsum_view env junk MAX x w indices _) as [s|]; [|now destruct (wsumsq_view env junk MAX x w indices _)].
    destruct (wsumsq_view env junk MAX x w indices _) as [s2|]; [|reflexivity].
    destruct (weights_view env junk MAX x w indices _) as [W|]; reflexivity.
  - intros k Hk. cbv beta iota. intros qs E Ht Ht1. rewrite E. clear E. rewrite times_fins, snd_fins, wsq_fins, !np_sum_fin.
    change (qsum (map snd qs)) with (total_weight qs). cbn [mul]. rewrite div_fin by exact Ht. rewrite sub_fin.
    change (num_of_Z 1) with (Fin (Q2Qc 1)). rewrite sub_fin, div_fin.
    + now rewrite wvariance_eq.
    + intros E. apply Ht1. replace (total_weight qs) with (total_weight qs - Q2Qc 1 + Q2Qc 1)%Qc by ring. rewrite E. change (Q2Qc 0) with 0%Qc. ring.
Qed.

(** the NaN version *)
Context (Hm : forall q, position (var_shape x) q -> D q <> PInf /\ D q <> MInf).
Lemma fibw_good k v u : wpos k -> In (v, u) (fibw k) -> v <> PInf /\ v <> MInf /\ exists q, u = Fin q.
Proof.
  intros Hk Hv. unfold fib in Hv. apply in_map_iff in Hv as (q & E & Hq). injection E as <- <-.
  assert (position (var_shape x) q) as Hp.
  { rewrite fibre_fibl in Hq; [|unfold var_shape; rewrite length_gone, map_length; reflexivity|exact Hk].
    eapply fibl_positions; [|exact Hk|exact Hq]. unfold var_shape. now rewrite length_gone, map_length. }
  destruct (Hm q Hp) as [H1 H2]. split; [exact H1|]. split; [exact H2|]. apply Hfin.
Qed.
Definition wgood (l : list (num * num)) : Prop := forall v u, In (v, u) l -> v <> PInf /\ v <> MInf /\ exists q, u = Fin q.
Lemma wgood_cons vu l : wgood (vu :: l) -> (exists q u, vu = (Fin q, Fin u)) \/ (exists u, vu = (NaN, Fin u)).
Proof.
  destruct vu as [v u]. intros H. destruct (H v u (or_introl eq_refl)) as (H1 & H2 & q & ->). destruct v; try congruence; eauto.
Qed.
Lemma wgood_tail vu l : wgood (vu :: l) -> wgood l.
Proof. intros H v u Hi. apply H. now right. Qed.
Lemma wgood_sum l : wgood l -> np_nansum (map times l) = Fin (total (map (fun '(q, u) => q * u)%Qc (wnumbers l))).
Proof.
  unfold np_nansum, np_sum. induction l as [|vu l IH]; intros H; [reflexivity|]. pose proof (wgood_cons _ _ H) as [(q & u & ->)|(u & ->)];
    specialize (IH (wgood_tail _ _ H)); cbn [map fold_right]; rewrite IH; cbn; [reflexivity|]. f_equal. apply Qcplus_0_l.
Qed.
Lemma wgood_weight l : wgood l -> np_nansum (map (fun vw => mul (not_nan (fst vw)) (snd vw)) l) = Fin (total_weight (wnumbers l)).
Proof.
  unfold np_nansum, np_sum, total_weight. induction l as [|vu l IH]; intros H; [reflexivity|].
  pose proof (wgood_cons _ _ H) as [(q & u & ->)|(u & ->)];
    specialize (IH (wgood_tail _ _ H)); cbn [map fold_right fst snd]; rewrite IH.
  - change (not_nan (Fin q)) with (Fin (Q2Qc 1)). cbn [mul nan_to_zero add wnumbers flat_map app map]. f_equal. unfold total. cbn [fold_right map snd].
    rewrite (Qcmult_1_l u : (Q2Qc 1 * u)%Qc = u). reflexivity.
  - change (not_nan NaN) with (Fin (Q2Qc 0)). change (wnumbers ((NaN, Fin u) :: l)) with (wnumbers l). generalize (total (map snd (wnumbers l))).
    intros t. change (Fin (0 * u + t)%Qc = Fin t). f_equal. ring.
Qed.
Lemma finite_summable l : (forall v, In v l -> v <> PInf) -> summable l.
Proof. intros H [H1 _]. now apply (H PInf). Qed.
Lemma rel_wnanmean : relates x DD indices (wnanmean_view env junk MAX x w indices) wnanmean_spec.
Proof.
  assert (forall k, wpos k -> wgood (fibw k)) as Hg by (intros k Hk v u; now apply fibw_good).
  assert (forall pre, (forall q, exists q', pre (Fin q) = Fin q') -> (exists q', pre NaN = Fin q' \/ pre NaN = NaN) ->
    forall k, wpos k -> summable (map (fun vw => mul (pre (fst vw)) (snd vw)) (fibw k))) as Hs.
  { intros pre H1 H2 k Hk. apply finite_summable. intros v Hv. apply in_map_iff in Hv as ([a u] & <- & Hi). cbn [fst snd].
    destruct (Hg k Hk a u Hi) as (E1 & E2 & q & ->). destruct a as [p| | |]; try congruence.
    - destruct (H1 p) as [q' ->]. discriminate.
    - destruct H2 as [q' [->| ->]]; discriminate. }
  pose proof (wnan_pre env Henv MAX HMAX junk x w D Dw Hx Hw Hgood indices along Hred Hal (fun v => v)
     (Hs (fun v => v) (fun q => ex_intro _ q eq_refl) (ex_intro _ (Q2Qc 0) (or_intror eq_refl)))) as A1.
  pose proof (wnan_pre env Henv MAX HMAX junk x w D Dw Hx Hw Hgood indices along Hred Hal not_nan
     (Hs not_nan (fun q => ex_intro _ _ eq_refl) (ex_intro _ (Q2Qc 0) (or_introl eq_refl)))) as A2.
  eapply relw; [exact (answer_zip x indices _ _ _ _ (fun o n => if ltb zero n then div o n else NaN) A1 A2)|].
  intros k Hk. cbv beta. pose proof (Hg k Hk) as H. change (map (fun vw => mul (fst vw) (snd vw)) (fibw k)) with (map times (fibw k)).
  rewrite wgood_sum, wgood_weight by exact H. unfold wnanmean_spec, zero. cbn [ltb]. destruct (qc_ltb _ _) eqn:E; [|reflexivity].
  apply div_fin. apply qc_ltb_lt in E. intros E'. rewrite E' in E. exact (Qclt_not_eq _ _ E eq_refl).
Qed.
End Weights.

(** the check of the weights *)
Lemma weights_pass (w : var axis num) indices along : reducible x indices -> weights_along x w indices along -> weights_ok x w indices = true.
Proof.
  intros Hred [_ Hal]. pose proof Hx as [Hsep _]. unfold weights_ok. apply forallb_forall. intros a Ha. apply existsb_exists.
  apply In_nth_error in Ha as [k Hk]. destruct (nth_error along k) as [i|] eqn:Ei.
  2:{ apply nth_error_None in Ei. pose proof (Forall2_len _ _ _ Hal). assert (k < length (var_axes w))%nat by (apply nth_error_Some; congruence). lia. }
  destruct (Forall2_nth_error _ _ _ _ _ _ Hal Hk Ei) as [Hi Ha]. exists a. split; [|apply same_refl].
  apply filter_In. split; [eapply nth_error_In, Ha|]. apply negb_true_iff. apply not_true_iff_false. intros E. apply existsb_exists in E as (b & Hb & Hs).
  unfold kept_axes in Hb. apply in_map_iff in Hb as ([j b'] & <- & Hb). apply filter_In in Hb as [Hb Hn]. cbn [snd] in *.
  apply In_nth_error in Hb as [m Hm]. rewrite nth_error_combine, nth_error_seq in Hm. destruct (Nat.ltb_spec m (length (var_axes x))); [|discriminate].
  cbn [Nat.add] in Hm. destruct (nth_error (var_axes x) m) as [b''|] eqn:Em; [|discriminate]. injection Hm as <- <-.
  apply negb_true_iff in Hn. destruct (Nat.eq_dec m i) as [->|Hne].
  - assert (existsb (Nat.eqb i) indices = true) by now apply existsb_In. congruence.
  - pose proof (unrelated_same _ _ (Hsep m i b'' a Em Ha Hne)) as E'. congruence.
Qed.
Lemma made_weighted (w : var axis num) {U} (D1 : list Z -> U) indices along f P :
  reducible x indices -> weights_along x w indices along -> relates x D1 indices (f x w indices) P ->
  exists y, weighted_var env junk f w x indices = Some y /\ reduces_to env x D1 indices y P.
Proof.
  intros Hred Hal Hrel. unfold weighted_var. rewrite (weights_pass w indices along Hred Hal). now apply (made_var D1 indices (fun x => f x w)).
Qed.

(** *** argmax and argmin *)
Lemma made_arg (better : num -> num -> bool) (arg : list num -> Z) junkz index a0 :
  (forall f n, 0 < n -> first_best better n f (arg (map f (arange 0 n 1)))) ->
  nth_error (var_axes x) index = Some a0 -> 0 < axis_len a0 -> prod (map axis_len (skipn index (var_axes x))) <= MAX ->
  exists y, arg_var env (fun x index v => accumulate1 env junk MAX x v junkz (fun a => Some (reduce_axis arg a index)) (fun _ b => b)) x index = Some y /\
            best_positions env better x D index y.
Proof.
  intros Harg Ha0 Hlen Hfit. assert (index < length (var_axes x))%nat as Hi by (apply nth_error_Some; congruence).
  pose proof Hx as [Hsep _].
  assert (reducible x [index]) as Hred.
  { split; [discriminate|]. split; [repeat constructor; now intros []|]. repeat constructor. now exists a0. }
  set (f := fun v => accumulate1 env junk MAX x v junkz (fun a => Some (reduce_axis arg a index)) (fun _ b => b)).
  set (F := fun k => arg (map (fun t => D (along_axis k index t)) (arange 0 (nth index (var_shape x) 0) 1))).
  assert (answer x [index] f F) as Ha.
  { intros L HL. unfold f, F. assert (nth index (var_shape x) 0 = axis_len a0) as -> by (unfold var_shape; apply nth_error_nth; now rewrite nth_error_map, Ha0).
    apply (arg_view_answer env Henv MAX HMAX junk junkz x D Hx Hgood index a0 Ha0 Hlen Hfit arg L HL). }
  unfold arg_var. destruct (Nat.ltb_spec index (length (var_axes x))) as [_|Hge]; [|lia]. fold f.
  set (y := Var (kept_axes (var_axes x) [index]) (GetView f)).
  assert (best_positions env better x D index y) as Hy.
  { assert (responds env y F) as HR by (split; cbn [var_axes var_source y]; [rewrite kept_dropped; now apply separate_dropped|exact Ha]).
    split; [apply kept_dropped|]. exists F. split; [exact HR|]. split; [intros j; now apply (responds_delivers env Henv j)|].
    intros k Hk. unfold F. apply (Harg (fun t => D (along_axis k index t))). unfold var_shape. erewrite nth_error_nth by (rewrite nth_error_map, Ha0; reflexivity). exact Hlen. }
  unfold if_in_memory. destruct (var_source x); [|now exists y|now exists y].
  destruct Hy as (Hax & D' & Hr & _ & HP). destruct (load_responds env Henv (fun _ => 0) y D' Hr) as (y' & Hl & Hax' & Hg).
  exists y'. split; [exact Hl|]. split; [now rewrite Hax'|]. exists D'. pose proof (getable_responds env y' D' Hg) as Hr'.
  split; [exact Hr'|]. split; [intros j; now apply (responds_delivers env Henv j)|].
  intros k Hk. apply HP. unfold var_shape in *. now rewrite <- Hax'.
Qed.
End Made.
