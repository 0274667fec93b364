(** C27: climatologies. *)
From Coq Require Import ZArith List Bool Lia ZifyBool Permutation QArith_base QArith Qcanon Field.
From Verif Require Import CalModel CalSpec TimeSearchModel TimeSearchSpec TimeSearchProofs TimeMapProofs TimeDateProofs SortSpec IndexModel IndexSpec IndexProofs ArrModel ArrProofs
  ViewModel ViewSpec ViewProofs AxisModel AxisSpec AxisProofs VarOpsModel VarOpsSpec VarOpsProofs NumModel NumProofs ReduceModel ReduceSpec ReduceProofs ReduceKinds StatProofs UfuncModel UfuncView StencilModel StencilSpec StencilProofs StencilProps IntgrProofs
  RespondProofs ChunkProofs LoopProofs BlockProofs FlattenProofs InterpView SmoothView CompositeProofs ConcatProofs ClimModel ClimSpec ClimSum ClimAxis ClimChunk ClimView ClimTotal ClimStat ClimLine ClimTrend
  EnvExample ViewProps ReduceProps WindowProps.
Import ListNotations.
Open Scope Z_scope.
Notation zlen := IndexSpec.zlen.
Notation znth := ArrModel.znth.

(** *** the mean of each group *)
Theorem C27_mean : forall env lexsort junk MAX, env_ok env -> lexsort_ok lexsort -> 1 <= MAX -> forall g x D ti t,
  responds env x D -> Forall good_axis (var_axes x) -> time_axis x ti t -> can_group g (t_mask t) ->
  exists y, time_op lexsort g (mean_view env lexsort junk MAX) x = Some y /\ climatology env g x D ti t y float_mean.
Proof.
  intros env lexsort junk MAX Henv Hlex HMAX g x D ti t Hx Hgood Hti Hc. pose proof Hti as [Ht Ho].
  apply (made_climatology env Henv lexsort Hlex junk g x D ti t _ (fun l => div (np_sum l) (num_of_Z (zlen l)))); try assumption.
  - intros u Hu H1 H2 H3 K HK. exact (mean_group env Henv lexsort Hlex junk MAX HMAX (var_axes x) (proj1 Hx) Hgood ti t Ht Ho u Hu H1 H2 H3 K HK x D Hx eq_refl).
  - intros u q _ _ Hne. split; [now rewrite float_sum_eq|]. intros qs E. rewrite E in *. rewrite zlen_map. apply mean_fin. intros ->. now apply Hne.
Qed.
Print Assumptions C27_mean.

(** leaving out NaNs *)
Theorem C27_nanmean : forall env lexsort junk MAX, env_ok env -> lexsort_ok lexsort -> 1 <= MAX -> forall g x D ti t,
  responds env x D -> Forall good_axis (var_axes x) -> time_axis x ti t -> can_group g (t_mask t) ->
  exists y, time_op lexsort g (nanmean_view env lexsort junk MAX) x = Some y /\ climatology env g x D ti t y nan_mean.
Proof.
  intros env lexsort junk MAX Henv Hlex HMAX g x D ti t Hx Hgood Hti Hc. pose proof Hti as [Ht Ho].
  apply (made_climatology env Henv lexsort Hlex junk g x D ti t _ (fun l => div (np_sum (not_nans l)) (nan_count (zlen (not_nans l))))); try assumption.
  - intros u Hu H1 H2 H3 K HK. exact (nanmean_group env Henv lexsort Hlex junk MAX HMAX (var_axes x) (proj1 Hx) Hgood ti t Ht Ho u Hu H1 H2 H3 K HK x D Hx eq_refl).
  - intros u q _ _ _. generalize (group ti t u D q). intros l. unfold nan_mean, nan_count. destruct (not_nans l) as [|v r] eqn:E.
    + left. split; reflexivity.
    + right. split; [discriminate|]. destruct (Z.eqb_spec (zlen (v :: r)) 0) as [E0|_]; [unfold zlen in E0; cbn in E0; lia|].
      split; [now rewrite float_sum_eq|]. intros qs Eq. rewrite Eq. rewrite zlen_map. apply mean_fin. intros ->. discriminate.
Qed.
Print Assumptions C27_nanmean.

(** the number of values that are not NaN *)
Theorem C27_count : forall env lexsort junk MAX, env_ok env -> lexsort_ok lexsort -> 1 <= MAX -> forall g x D ti t,
  responds env x D -> Forall good_axis (var_axes x) -> time_axis x ti t -> can_group g (t_mask t) ->
  exists y, time_op lexsort g (count_view env lexsort junk MAX) x = Some y /\ climatology env g x D ti t y (fun l w => w = num_of_Z (zlen (not_nans l))).
Proof.
  intros env lexsort junk MAX Henv Hlex HMAX g x D ti t Hx Hgood Hti Hc. pose proof Hti as [Ht Ho].
  apply (made_climatology env Henv lexsort Hlex junk g x D ti t _ (fun l => num_of_Z (zlen (not_nans l)))); try assumption.
  - intros u Hu H1 H2 H3 K HK. exact (count_group env Henv lexsort Hlex junk MAX HMAX (var_axes x) (proj1 Hx) Hgood ti t Ht Ho u Hu H1 H2 H3 K HK x D Hx eq_refl).
  - reflexivity.
Qed.
Print Assumptions C27_count.

(** the standard deviation: for finite values the root of the sum of the squared deviations over (n - 1), NaN for one value *)
Theorem C27_stdev : forall env lexsort junk MAX, env_ok env -> lexsort_ok lexsort -> 1 <= MAX -> forall sqrt, sqrt NaN = NaN -> forall g x D ti t,
  responds env x D -> Forall good_axis (var_axes x) -> time_axis x ti t -> can_group g (t_mask t) ->
  exists y, time_op lexsort g (stdev_view env lexsort junk MAX sqrt) x = Some y /\ climatology env g x D ti t y (float_sd sqrt).
Proof.
  intros env lexsort junk MAX Henv Hlex HMAX sqrt Hsq g x D ti t Hx Hgood Hti Hc. pose proof Hti as [Ht Ho].
  apply (made_climatology env Henv lexsort Hlex junk g x D ti t _ (fun l => sqrt (spread (np_sum (map (fun v => mul v v) l)) (np_sum l) (num_of_Z (zlen l))))); try assumption.
  - intros u Hu H1 H2 H3 K HK. exact (stdev_group env Henv lexsort Hlex junk MAX HMAX (var_axes x) (proj1 Hx) Hgood ti t Ht Ho u Hu H1 H2 H3 K HK x D Hx eq_refl sqrt).
  - intros u q _ _ Hne qs E. rewrite E in *. rewrite zlen_map. assert (qs <> []) as Hq by (intros ->; now apply Hne).
    pose proof (variance_fin qs Hq) as Hv. cbv zeta in Hv. unfold spread. cbv zeta. rewrite Hv. destruct (Nat.leb 2 (length qs)); [reflexivity|exact Hsq].
Qed.
Print Assumptions C27_stdev.
(** leaving out NaNs *)
Theorem C27_nanstdev : forall env lexsort junk MAX, env_ok env -> lexsort_ok lexsort -> 1 <= MAX -> forall sqrt, sqrt NaN = NaN -> forall g x D ti t,
  responds env x D -> Forall good_axis (var_axes x) -> time_axis x ti t -> can_group g (t_mask t) ->
  exists y, time_op lexsort g (nanstdev_view env lexsort junk MAX sqrt) x = Some y /\ climatology env g x D ti t y (fun l w => float_sd sqrt (not_nans l) w).
Proof.
  intros env lexsort junk MAX Henv Hlex HMAX sqrt Hsq g x D ti t Hx Hgood Hti Hc. pose proof Hti as [Ht Ho].
  apply (made_climatology env Henv lexsort Hlex junk g x D ti t _ (fun l => let l := not_nans l in sqrt (spread (np_sum (map (fun v => mul v v) l)) (np_sum l) (nan_count (zlen l))))); try assumption.
  - intros u Hu H1 H2 H3 K HK. exact (nanstdev_group env Henv lexsort Hlex junk MAX HMAX (var_axes x) (proj1 Hx) Hgood ti t Ht Ho u Hu H1 H2 H3 K HK x D Hx eq_refl sqrt).
  - intros u q _ _ _ qs E. cbv zeta. rewrite E in *. rewrite zlen_map. destruct qs as [|a qs]; [exact Hsq|].
    assert (a :: qs <> []) as Hq by discriminate.
    pose proof (variance_fin (a :: qs) Hq) as Hv. cbv zeta in Hv. unfold spread, nan_count. cbv zeta.
    destruct (Z.eqb_spec (zlen (a :: qs)) 0) as [E0|_]; [unfold zlen in E0; cbn in E0; lia|]. rewrite Hv. destruct (Nat.leb 2 (length (a :: qs))); [reflexivity|exact Hsq].
Qed.
Print Assumptions C27_nanstdev.

(** an axis without the fields it takes: the operation fails *)
Theorem C27_refused : forall lexsort g getview x ti t, time_axis x ti t -> ~ can_group g (t_mask t) -> time_op lexsort g getview x = None.
Proof.
  intros lexsort g getview x ti t [Ht Ho] Hc. unfold time_op. rewrite (time_index_at (var_axes x) ti t Ht Ho). cbn [bind]. now rewrite outtime_none.
Qed.
Print Assumptions C27_refused.

(** every time belongs to exactly one group *)
Theorem C27_groups : forall k t u, good_axis (Time u) -> groups k t u -> forall i, 0 <= i < zlen (t_dates t) ->
  exists j, 0 <= j < zlen (t_dates u) /\ In i (times_on t u j) /\ forall j', 0 <= j' < zlen (t_dates u) -> In i (times_on t u j') -> j' = j.
Proof.
  intros k t u Gu (H1 & H2 & <- & H4 & H5) i Hi.
  assert (In (record_of (t_mask u) t i) (records (t_mask u) u)) as Hr.
  { apply H5. apply nth_In. unfold records. rewrite map_length. unfold zlen in Hi. lia. }
  apply at_in in Hr as (j & Hj). apply record_at in Hj as [Bj Ej]. exists j. split; [exact Bj|].
  assert (forall j', In i (times_on t u j') -> record_of (t_mask u) t i = record_of (t_mask u) u j') as Hin.
  { intros j' H. apply filter_In in H as [_ H]. destruct list_eq_dec as [E|]; [exact E|discriminate]. }
  split; [apply filter_In; split; [apply In_arange1; lia|]; destruct list_eq_dec as [|N]; [reflexivity|contradiction]|].
  intros j' Bj' Hj'. apply Hin in Hj'. destruct Gu as (_ & _ & _ & _ & Hnd & _).
  apply (NoDup_at (records (t_mask u) u) j' j (record_of (t_mask u) t i)); [exact Hnd| |]; apply record_at; auto.
Qed.
Print Assumptions C27_groups.

(** *** trends: coefficient 0 is the offset and 1 the slope of the line with the least squared error through the points of the group,
    if there are at least two; time in seconds from the start date of the axis *)
Theorem C27_trend : forall env lexsort junk MAX, env_ok env -> lexsort_ok lexsort -> 1 <= MAX -> forall coef g x D ti t,
  responds env x D -> Forall good_axis (var_axes x) -> time_axis x ti t -> can_group g (t_mask t) -> 1 < zlen (t_dates t) ->
  separate (var_axes x ++ [coef]) -> axis_len coef = 2 -> (forall s, coef <> Time s) ->
  exists y u D', trend env lexsort junk MAX coef g x = Some y /\ good_axis (Time u) /\ groups (kept g (t_mask t)) t u /\
    var_axes y = set_at (var_axes x) ti (Time u) ++ [coef] /\ computes env y D' /\
    forall q fs, position (set_at (var_shape x) ti (zlen (t_dates u))) q ->
      let T := times_on t u (nth ti q 0) in
      map (fun i => D (moved q ti i)) T = map Fin fs -> 1 < zlen T ->
      exists a b, D' (q ++ [0]) = Fin a /\ D' (q ++ [1]) = Fin b /\ best_line (combine (map (time_seconds t) T) fs) a b.
Proof.
  intros env lexsort junk MAX Henv Hlex HMAX coef g x D ti t Hx Hgood Hti Hc H1t Hsep H2 Hcoef. pose proof Hti as [Ht Ho].
  pose proof (nth_error_In _ _ Ht) as Hint. pose proof (proj1 (Forall_forall _ _) Hgood _ Hint) as Gt.
  destruct (outtime_spec lexsort Hlex g t Gt Hc) as (u & Eu & Gu & Hgr). pose proof Hgr as (G1 & G2 & G3 & G4 & G5).
  unfold trend. rewrite (time_index_at (var_axes x) ti t Ht Ho). cbn [bind]. rewrite Eu. cbn [bind].
  destruct (Z.ltb_spec 1 (zlen (t_dates t))) as [_|]; [|lia].
  assert (ti < length (var_axes x))%nat as Hlt by (apply nth_error_Some; congruence).
  eexists _, u, (fun p => ClimTrend.line ti t u D (removelast p) (last p 0)). split; [reflexivity|]. split; [exact Gu|]. split; [exact Hgr|]. split; [reflexivity|]. split.
  - apply (computed env Henv). split; cbn [var_axes var_source].
    + assert (set_at (var_axes x) ti (Time u) ++ [coef] = set_at (var_axes x ++ [coef]) ti (Time u)) as ->.
      { clear -Hlt. revert ti Hlt. induction (var_axes x) as [|a l IH]; intros ti Hlt; [cbn in Hlt; lia|]. destruct ti as [|ti]; [reflexivity|]. cbn. f_equal. apply IH. cbn in Hlt. lia. }
      apply (A'_sep (var_axes x ++ [coef]) Hsep ti t); [rewrite nth_error_app1 by exact Hlt; exact Ht| |exact G1].
      intros i s Hi. destruct (Nat.lt_ge_cases i (length (var_axes x))) as [Hl|Hl].
      * rewrite nth_error_app1 in Hi by exact Hl. now apply Ho in Hi.
      * rewrite nth_error_app2 in Hi by exact Hl. destruct (i - length (var_axes x))%nat as [|[|]]; try discriminate. injection Hi as Hi. now apply Hcoef in Hi.
    + intros L HL. apply Forall2_app_inv_l in HL as (K & r & HK & Hr & ->). inversion Hr as [|? kc ? r' Hkc Hr']; subst. inversion Hr'; subst.
      destruct (trend_group env Henv lexsort Hlex junk MAX HMAX (var_axes x) (proj1 Hx) Hgood ti t Ht Ho u Gu G1) with (K := K) (kc := kc) (coef := coef) (x := x) (D := D) as (r & Hr1 & Hr2).
      * rewrite G3. apply kept_sub.
      * rewrite G3. intros r0 Hr0. now apply G5.
      * exact HK.
      * exact Hx.
      * reflexivity.
      * intros c Hcc. destruct Hkc as (_ & Hrange & _). pose proof (proj1 (Forall_forall _ _) Hrange c Hcc) as B. cbv beta in B. rewrite H2 in B. lia.
      * exists r. split; [exact Hr1|]. destruct Hr2 as [S2 V2]. split; [exact S2|]. intros p Hp. rewrite (V2 p Hp).
        rewrite map_app in Hp. apply Forall2_app_inv_l in Hp as (q & s & Hq & Hs & ->). inversion Hs as [|? j ? s' Hj Hs']; subst. inversion Hs'; subst.
        rewrite removelast_last, last_last.
        assert (gather (K ++ [kc]) (q ++ [j]) = gather K q ++ [znth kc j]) as ->.
        { apply Forall2_len in Hq. rewrite map_length in Hq. clear -Hq. revert q Hq. induction K as [|l K IH]; intros [|a q] Hq; try discriminate; [reflexivity|].
          unfold gather in *. cbn [combine map app]. f_equal. apply IH. now injection Hq. }
        now rewrite removelast_last, last_last.
  - cbv zeta. intros q fs Hq Hfs H2T. rewrite !removelast_last, !last_last.
    assert (ti < length q)%nat as Hlq.
    { apply Forall2_len in Hq. rewrite length_set_at in Hq. unfold var_shape in Hq. rewrite map_length in Hq. lia. }
    set (T := times_on t u (nth ti q 0)) in *.
    assert (NoDup T) as HndT by (apply NoDup_filter, increasing_NoDup, SmoothView.increasing_arange1).
    assert (exists i j r, T = i :: j :: r) as (i & j & r & ET).
    { destruct T as [|i [|j r]]; [unfold zlen in H2T; cbn in H2T; lia|unfold zlen in H2T; cbn in H2T; lia|eauto]. }
    assert (In i T /\ In j T) as [Hi Hj] by (rewrite ET; cbn; auto).
    apply (line_best ti t u D q Hlq fs Hfs i j Hi Hj).
    assert (i <> j) as Hij by (rewrite ET in HndT; inversion HndT as [|? ? N _]; intros ->; apply N; now left).
    intros E. apply Hij. unfold T in Hi, Hj. apply filter_In in Hi as [Hi _], Hj as [Hj _]. apply In_arange1 in Hi, Hj.
    assert (zlen (t_vals t) = zlen (t_dates t)) as El.
    { destruct Gt as (_ & _ & _ & Hv & _). apply (f_equal (@length _)) in Hv. rewrite !map_length in Hv. unfold zlen. lia. }
    unfold time_seconds in E. apply Q2Qc_eq_iff in E.
    pose proof (time_vals_distinct t Gt) as Hd.
    destruct (Z.eq_dec i j) as [|N]; [assumption|]. exfalso. apply (Hd i j (nth (Z.to_nat i) (t_vals t) 0%Q) (nth (Z.to_nat j) (t_vals t) 0%Q)).
    + split; [lia|]. apply nth_error_nth'. unfold zlen in *. lia.
    + split; [lia|]. apply nth_error_nth'. unfold zlen in *. lia.
    + exact N.
    + apply Qmult_inj_r in E; [exact E|]. destruct (t_units t); intros HZ; discriminate HZ.
Qed.
Print Assumptions C27_trend.

(** *** examples *)
(** an argsort of records *)
Fixpoint insert_row (key : Z -> list Z) (i : Z) (l : list Z) : list Z :=
  match l with [] => [i] | j :: t => if row_le (key i) (key j) then i :: l else j :: insert_row key i t end.
Definition row_sort (rows : list (list Z)) : list Z :=
  fold_right (insert_row (fun i => nth (Z.to_nat i) rows [])) [] (map Z.of_nat (seq 0 (length rows))).
Lemma row_sort_ok : lexsort_ok row_sort.
Proof.
  intros n rows Hn. unfold row_sort. set (key := fun i => nth (Z.to_nat i) rows []).
  assert (forall i l, Permutation (insert_row key i l) (i :: l)) as Hperm.
  { intros i l. induction l as [|j l IH]; cbn; [reflexivity|]. destruct (row_le _ _); [reflexivity|]. eapply Permutation_trans; [apply perm_skip, IH|apply perm_swap]. }
  assert (forall ix, Permutation (fold_right (insert_row key) [] ix) ix) as Hp.
  { induction ix as [|i ix IH]; [constructor|]. cbn [fold_right]. eapply Permutation_trans; [apply Hperm|now apply perm_skip]. }
  split; [apply Hp|]. intros s Hs. apply (take_map _ _ _ []) in Hs as [-> Hr].
  set (ix := map Z.of_nat (seq 0 (length rows))) in *.
  assert (forall i, In i ix -> length (key i) = n) as Hlen.
  { intros i Hi. apply in_map_iff in Hi as (k & <- & Hk). apply in_seq in Hk. unfold key. rewrite Nat2Z.id. apply (proj1 (Forall_forall _ _) Hn). apply nth_In. lia. }
  assert (forall l, (forall i, In i l -> length (key i) = n) -> let r := fold_right (insert_row key) [] l in
    ForallOrdPairs (fun i j => ~ lex_lt (key j) (key i)) r) as Hord.
  { induction l as [|i l IH]; intros Hl; [constructor|]. cbn [fold_right]. specialize (IH (fun k Hk => Hl k (or_intror Hk))). cbv zeta in IH.
    assert (forall k, In k (fold_right (insert_row key) [] l) -> length (key k) = n) as Hl' by (intros k Hk; apply Hl; right; exact (Permutation_in _ (Hp l) Hk)).
    revert IH Hl'. pose proof (Hl i (or_introl eq_refl)) as Li. generalize (fold_right (insert_row key) [] l). intros r IH Hl'.
    induction IH as [|j r Hj Hr' IHr]; [constructor; constructor|]. cbn [insert_row]. destruct (row_le (key i) (key j)) eqn:E.
    - apply row_le_spec in E; [|rewrite Li; symmetry; apply Hl'; now left]. constructor; [|constructor; [exact Hj|exact Hr']].
      constructor; [exact E|]. apply Forall_forall. intros k Hk. pose proof (proj1 (Forall_forall _ _) Hj k Hk) as Q. cbv beta in Q. intros F. apply Q.
      destruct (not_lt_cases (key i) (key j)) as [C|C]; [rewrite Li; symmetry; apply Hl'; now left|exact E| |].
      + exact (lex_trans _ _ _ F C).
      + now rewrite C in F.
    - assert (~ lex_lt (key i) (key j)) as E'.
      { intros F. assert (row_le (key i) (key j) = true) as Q; [|congruence]. apply row_le_spec; [rewrite Li; symmetry; apply Hl'; now left|]. now apply lex_asym. }
      constructor; [|apply IHr; intros k Hk; apply Hl'; now right]. apply Forall_forall. intros k Hk. apply (Permutation_in _ (Hperm i r)) in Hk as [<-|Hk]; [exact E'|].
      exact (proj1 (Forall_forall _ _) Hj k Hk). }
  specialize (Hord ix Hlen). cbv zeta in Hord. clear Hr. revert Hord. generalize (fold_right (insert_row key) [] ix). intros r Hord a b ra rb Ha Hb Hab.
  destruct Ha as [A0 Ha], Hb as [B0 Hb]. rewrite nth_error_map in Ha, Hb.
  assert (forall m k i j, nth_error r m = Some i -> nth_error r k = Some j -> (m < k)%nat -> ~ lex_lt (key j) (key i)) as Hpair.
  { clear -Hord. induction Hord as [|x r Hx Hr IH]; intros m k i j Hm Hk Hmk; [destruct m; discriminate|]. destruct k as [|k]; [lia|]. destruct m as [|m].
    - injection Hm as <-. cbn in Hk. apply nth_error_In in Hk. exact (proj1 (Forall_forall _ _) Hx _ Hk).
    - cbn in Hm, Hk. apply (IH m k); [exact Hm|exact Hk|lia]. }
  destruct (nth_error r (Z.to_nat a)) as [i|] eqn:Ei; [|discriminate]. destruct (nth_error r (Z.to_nat b)) as [j|] eqn:Ej; [|discriminate].
  injection Ha as <-. injection Hb as <-. apply (Hpair _ _ _ _ Ei Ej). lia.
Qed.

(** daily data of two years, not in order: 2001-02-01, 2000-01-01, 2000-02-01, 2001-01-01, 2000-01-02 *)
Definition days5 : taxis :=
  MkTime [3; 5] Std (mkpdate (Some 2000) (Some 1) (Some 1) None None None) Days (mkmask true true true false false false)
    [mkdate 2001 2 1 0 0 0; mkdate 2000 1 1 0 0 0; mkdate 2000 2 1 0 0 0; mkdate 2001 1 1 0 0 0; mkdate 2000 1 2 0 0 0]
    [34300800 # 86400; 0 # 86400; 2678400 # 86400; 31622400 # 86400; 86400 # 86400]%Q.
Definition readings (q : list Z) : num :=
  match q with [1; 2] => NaN | _ => num_of_Z (100 * nth 0 q 0 + 10 * (nth 1 q 0) * (nth 1 q 0)) end.
Definition daily : var axis num := source [lat2; Time days5] readings.
Lemma daily_responds : responds env0 daily readings.
Proof. apply source_responds. two_axes. Qed.
Lemma days5_good : good_axis (Time days5).
Proof.
  split; [vm_compute; split; discriminate|]. split; [|split; [discriminate|split; [vm_compute; reflexivity|split]]].
  - assert (month_length Std 2001 2 28) as M1 by (apply ml_feb_std; intros [[k Hk] _]; cbn in Hk; lia).
    assert (month_length Std 2000 2 29) as M2 by (apply ml_feb_leap; split; [exists 500; reflexivity|right; exists 5; reflexivity]).
    assert (forall y, month_length Std y 1 31) as M3 by (intros y; apply ml_31; auto).
    repeat constructor; try (cbn; lia); [exists 28|exists 31|exists 29|exists 31|exists 31]; (split; [first [exact M1|exact M2|apply M3]|cbn; lia]).
  - cbn. repeat (constructor; [cbn; intros H; repeat (destruct H as [H|H]; [discriminate|]); exact H|]). constructor.
  - vm_compute. repeat constructor; discriminate.
Qed.
Lemma daily_good : Forall good_axis (var_axes daily).
Proof. constructor; [exact (Forall_inv field_good)|]. constructor; [exact days5_good|constructor]. Qed.
Lemma daily_time : time_axis daily 1 days5.
Proof. split; [reflexivity|]. intros [|[|i]] s H; [discriminate|reflexivity|destruct i; discriminate]. Qed.
Lemma daily_groups g : can_group g (t_mask days5) <-> g <> Diurnal.
Proof.
  split; [intros [H _] ->; apply H; reflexivity|]. intros Hg.
  destruct g; try contradiction; (split; [discriminate|vm_compute; reflexivity || exact Logic.I]).
Qed.
(** climatological means over the years: January 1st, January 2nd, February 1st; monthly means of both years; chunks of 3 elements *)
Example C27_example :
  show (time_op row_sort Clim (mean_view env0 row_sort zs 3) daily) [[0; 1]; [0; 1; 2]] [[0; 0]; [0; 1]; [0; 2]; [1; 0]; [1; 1]; [1; 2]]
    = Some ([2; 3], [Some 50; Some 160; Some 20; Some 150; Some 260; None]%Q) /\
  show (time_op row_sort Clim (nanmean_view env0 row_sort zs 3) daily) [[1]; [0; 2]] [[0; 0]; [0; 1]] = Some ([1; 2], [Some 150; Some 100]%Q) /\
  show (time_op row_sort Monthly (mean_view env0 row_sort zs 2) daily) [[0]; [0; 1; 2; 3]] [[0; 0]; [0; 1]; [0; 2]; [0; 3]] = Some ([1; 4], [Some 85; Some 40; Some 90; Some 0]%Q) /\
  show (time_op row_sort Yearly (count_view env0 row_sort zs 2) daily) [[1]; [0; 1]] [[0; 0]; [0; 1]] = Some ([1; 2], [Some 2; Some 2]%Q) /\
  show (time_op row_sort Yearly (stdev_view env0 row_sort zs 2 (fun v => v)) daily) [[0]; [0; 1]] [[0; 0]; [0; 1]] = Some ([1; 2], [Some 6300; Some 4050]%Q) /\
  time_op row_sort Diurnal (mean_view env0 row_sort zs 3) daily = None.
Proof. split; [|split; [|split; [|split; [|split]]]]; vm_compute; reflexivity. Qed.
Definition coef2 : axis := Coord (MkCoord Plain [4; 1] 8 [0; 1]%Q [] [] (1 # 100000)).
Definition steadily (q : list Z) : num := Fin (Q2Qc (inject_Z 7) + Q2Qc (inject_Z 3) * time_seconds days5 (nth 0 q 0%Z))%Qc.
Example C27_trend_example :
  show (trend env0 row_sort zs 2 coef2 Yearly (source [Time days5] steadily)) [[0; 1]; [0; 1]] [[0; 0]; [0; 1]; [1; 0]; [1; 1]] = Some ([2; 2], [Some 7; Some 3; Some 7; Some 3]%Q).
Proof. vm_compute. reflexivity. Qed.
Example C27_used : exists y, time_op row_sort Clim (mean_view env0 row_sort zs 3) daily = Some y /\ climatology env0 Clim daily readings 1 days5 y float_mean.
Proof. apply C27_mean; [exact env0_ok|exact row_sort_ok|lia|exact daily_responds|exact daily_good|exact daily_time|apply daily_groups; discriminate]. Qed.
Example C27_trend_used : exists y u D', trend env0 row_sort zs 3 coef2 Yearly daily = Some y /\ groups (kept Yearly (t_mask days5)) days5 u /\ computes env0 y D'.
Proof.
  destruct (C27_trend env0 row_sort zs 3 env0_ok row_sort_ok ltac:(lia) coef2 Yearly daily readings 1%nat days5) as (y & u & D' & H1 & _ & H2 & _ & H3 & _).
  - exact daily_responds.
  - exact daily_good.
  - exact daily_time.
  - apply daily_groups. discriminate.
  - vm_compute. reflexivity.
  - intros [|[|[|i]]] [|[|[|j]]] a b Ha Hb Hne; cbn in Ha, Hb; try (exfalso; apply Hne; reflexivity); try (destruct i; discriminate); try (destruct j; discriminate);
      injection Ha as <-; injection Hb as <-; vm_compute; auto.
  - reflexivity.
  - discriminate.
  - exists y, u, D'. auto.
Qed.
