(** C67: anomalies: data combined with a climatology of the same data, and data without their trend. *)
From Coq Require Import ZArith List Bool Lia ZifyBool Permutation QArith_base QArith Qcanon Field.
From Verif Require Import CalModel CalSpec TimeSearchModel TimeSearchSpec TimeSearchProofs TimeMapProofs TimeDateProofs SortSpec IndexModel IndexSpec IndexProofs ArrModel ArrProofs
  ViewModel ViewSpec ViewProofs AxisModel AxisSpec AxisProofs VarOpsModel VarOpsSpec VarOpsProofs NumModel NumProofs ReduceModel ReduceSpec StencilModel StencilSpec StencilProofs
  RespondProofs LoopProofs IntgrProofs WindowModel UfuncModel UfuncSpec UfuncProofs UfuncView UfuncProps ClimModel ClimSpec ClimSum ClimAxis ClimChunk ClimView ClimStat ClimTrend ClimLine
  AnomModel AnomSpec AnomProofs AnomView ViewProps EnvExample ReduceProps StencilProps ClimProps.
Import ListNotations.
Open Scope Z_scope.
Notation zlen := IndexSpec.zlen.
Notation znth := ArrModel.znth.

Lemma groups_like u t gm i : coarser u t gm -> 0 <= i < zlen (t_dates t) -> times_on t u (znth gm i) = like (t_mask u) t i.
Proof. intros H Hi. unfold times_on, like. now rewrite (coarser_record u t gm i H Hi). Qed.
Lemma moved_moved (q : list Z) d i j : moved (set_at q d j) d i = moved q d i.
Proof. unfold moved. revert d. induction q as [|x q IH]; intros [|d]; cbn; [reflexivity..|]. now rewrite IH. Qed.
Lemma position_set ns q d j n : position ns q -> 0 <= j < n -> position (set_at ns d n) (set_at q d j).
Proof. intros H Hj. revert d. induction H as [|m i ns q H Hp IH]; intros [|d]; cbn; constructor; try assumption. apply IH. Qed.

Section Found.
Context (env : axenv) (Henv : env_ok env) (x : var axis num) (ti : nat) (t : taxis) (Htime : time_axis x ti t)
  (Htight : forall a, In a (var_axes x) -> tight_axis a) (u : taxis) (Gu : good_axis (Time u)) (k : mask) (Hgr : groups k t u) (Hsub : mask_sub k (t_mask t) = true) (Hne : k <> t_mask t).
Lemma Gt : good_axis (Time t).
Proof. apply Htight. eapply nth_error_In, Htime. Qed.
Lemma found : exists gm, coarser u t gm /\ axis_map_to env (Time u) (Time t) = Some gm.
Proof.
  destruct Hgr as (H1 & _ & H3 & _ & H5). apply (coarser_exists env Henv u t Gu Gt H1); rewrite H3; auto. intros r Hr. now apply H5.
Qed.
Lemma in_time p : position (var_shape x) p -> 0 <= nth ti p 0 < zlen (t_dates t).
Proof. intros Hp. rewrite <- (time_len t Gt). apply (position_nth (var_shape x) p ti _ Hp). unfold var_shape. rewrite nth_error_map, (proj1 Htime). reflexivity. Qed.
End Found.

Lemma both_group x D ti t (Htime : time_axis x ti t) (Htight : forall a, In a (var_axes x) -> tight_axis a) u gm (Hco : coarser u t gm) k (H3 : t_mask u = k) (P : list num -> num -> Prop) (m : var axis num) D'
  (Em : var_axes m = set_at (var_axes x) ti (Time u)) (HP : forall q, position (var_shape m) q -> P (map (fun i => D (moved q ti i)) (times_on t u (nth ti q 0))) (D' q)) op :
  forall p, position (var_shape x) p -> exists w, P (group_of D k t ti p) w /\ both op D ti gm D' p = op [D p; w].
Proof.
  pose proof Htime as [Ht Ho].
  intros p Hp. pose proof (in_time x ti t Htime Htight p Hp) as Hi. set (q := set_at p ti (znth gm (nth ti p 0))). exists (D' q). split; [|reflexivity].
  assert (position (var_shape m) q) as Hq.
  { unfold var_shape. rewrite Em, map_set_at. apply position_set; [exact Hp|]. pose proof (coarser_range _ _ _ Hco) as Hr.
    apply (proj1 (Forall_forall _ _) Hr). unfold znth. apply nth_In. pose proof (coarser_len _ _ _ Hco). unfold IndexSpec.zlen in *. lia. }
  pose proof (HP q Hq) as K. unfold group_of.
  assert (nth ti q 0 = znth gm (nth ti p 0)) as Eq.
  { apply nth_set_at. pose proof (Forall2_len _ _ _ Hp) as HL. unfold var_shape in HL. rewrite map_length in HL. rewrite <- HL. apply nth_error_Some. congruence. }
  rewrite Eq, (groups_like u t gm _ Hco Hi), H3 in K. erewrite map_ext; [exact K|]. intros i. unfold q. now rewrite moved_moved.
Qed.

(** *** C67 *)
(** any element-wise operation of a variable with a climatology of it (a mean, a standard deviation, ...) that leaves out some of the fields
    of the dates: at every time the operation applied to the datum and the climatology of the times with the same fields; for the parts whose
    times are of at least two groups, or that have one time only *)
Theorem C67_part_partial : forall env, env_ok env -> forall junk op g x D ti t m P,
  responds env x D -> (forall a, In a (var_axes x) -> tight_axis a) -> time_axis x ti t -> kept g (t_mask t) <> t_mask t -> climatology env g x D ti t m P ->
  exists y E, ufunc_var env junk op [AVar x; AVar m] = Some y /\ var_axes y = var_axes x /\
    (forall p, position (var_shape x) p -> exists w, P (group_of D (kept g (t_mask t)) t ti p) w /\ E p = op [D p; w]) /\
    forall inds, Forall2 selection (var_axes x) inds -> mixed (kept g (t_mask t)) t (nth ti inds []) ->
      exists r, ViewModel.get (axis_ops env) junk (view_of_inds (var_axes x) inds) y true true = Some r /\ array_is r (map zlen inds) (fun p => E (gather inds p)).
Proof.
  intros env Henv junk op g x D ti t m P Hx Htight Htime Hne (u & D' & Gu & Hgr & Em & [Hm _] & HP).
  destruct (found env Henv x ti t Htime Htight u Gu _ Hgr (kept_sub _ _) Hne) as (gm & Hco & Hmap). pose proof Htime as [Ht Ho]. pose proof Hgr as (_ & _ & H3 & _).
  exists (Var (var_axes x) (GetView (ufunc_view env junk op [AVar x; AVar m]))), (both op D ti gm D').
  split; [|split; [reflexivity|split]].
  - apply (combined_var env Henv junk op x D Hx (proj2 (Forall_forall _ _) Htight) ti t Ht Ho u gm Hco Hmap m Em).
  - exact (both_group x D ti t Htime Htight u gm Hco _ H3 P m D' Em HP op).
  - intros L HL Hmix. apply (combined_lazy env Henv junk op x D Hx ti t Ht Ho u gm Hco m D' Em L Hm HL). now rewrite H3.
Qed.
Print Assumptions C67_part_partial.

(** with the climatology in memory (load), every part *)
Theorem C67_loaded : forall env, env_ok env -> forall junk op g x D ti t m P,
  responds env x D -> (forall a, In a (var_axes x) -> tight_axis a) -> time_axis x ti t -> kept g (t_mask t) <> t_mask t -> climatology env g x D ti t m P ->
  exists l y E, load env m junk = Some l /\ ufunc_var env junk op [AVar x; AVar l] = Some y /\ var_axes y = var_axes x /\
    (forall p, position (var_shape x) p -> exists w, P (group_of D (kept g (t_mask t)) t ti p) w /\ E p = op [D p; w]) /\ computes env y E.
Proof.
  intros env Henv junk op g x D ti t m P Hx Htight Htime Hne (u & D' & Gu & Hgr & Em & [Hm Hd] & HP).
  destruct (load_responds env Henv junk m D' Hm) as (l & El & Eax & Hl).
  destruct (found env Henv x ti t Htime Htight u Gu _ Hgr (kept_sub _ _) Hne) as (gm & Hco & Hmap). pose proof Htime as [Ht Ho].
  assert (var_axes l = clim_axes (var_axes x) ti u) as Elx by (rewrite Eax; exact Em).
  exists l, (Var (var_axes x) (GetView (ufunc_view env junk op [AVar x; AVar l]))), (both op D ti gm D').
  split; [exact El|]. split; [apply (combined_var env Henv junk op x D Hx (proj2 (Forall_forall _ _) Htight) ti t Ht Ho u gm Hco Hmap l Elx)|]. split; [reflexivity|]. split.
  - exact (both_group x D ti t Htime Htight u gm Hco _ (proj1 (proj2 (proj2 Hgr))) P m D' Em HP op).
  - apply (computed env Henv). apply (combined_loaded env Henv junk op x D Hx ti t Ht Ho u gm Hco l D' Elx Hl).
Qed.
Print Assumptions C67_loaded.

(** *** without the trend *)
Lemma total_squares_same (l : list (Qc * Qc)) (e : Qc) : total (ReduceSpec.squares (map (fun _ => e) l)) = (Q2Qc (inject_Z (zlen l)) * (e * e))%Qc.
Proof.
  induction l as [|p l IH]; [cbn; change (zlen (@nil (Qc * Qc))) with 0; change (Q2Qc (inject_Z 0)) with (Q2Qc 0); ring|].
  cbn [map ReduceSpec.squares]. rewrite ClimLine.total_cons, cnt_cons. unfold ReduceSpec.squares in IH. rewrite IH. ring.
Qed.
Lemma Qc_le_minus (p q : Qc) : (p <= p - q)%Qc -> (q <= Q2Qc 0)%Qc.
Proof.
  intros H. apply (Qcplus_le_compat _ _ (q - p) (q - p)) in H; [|apply Qcle_refl].
  replace (p + (q - p))%Qc with q in H by ring. replace (p - q + (q - p))%Qc with (Q2Qc 0) in H by ring. exact H.
Qed.
(** the residuals of the best line add up to nothing *)
Lemma best_sum l a b : best_line l a b -> l <> [] -> total (map (rest a b) l) = Q2Qc 0.
Proof.
  intros H Hl. set (R := total (map (rest a b) l)). set (n := Q2Qc (inject_Z (zlen l))).
  assert (n <> Q2Qc 0) as Hn.
  { intros E. unfold n in E. apply Q2Qc_eq_iff in E as K.
    destruct l; [congruence|]. unfold Qeq in K. cbn in K. unfold IndexSpec.zlen in K. cbn [length] in K. lia. }
  set (e := (R / n)%Qc). assert (R = (n * e)%Qc) as ER by (unfold e; field; exact Hn). clearbody e.
  destruct (H (a + e)%Qc b) as [Hle _]. rewrite (error_split l a b (a + e)%Qc b) in Hle. fold R in Hle.
  assert (map (fun p : Qc * Qc => (a - (a + e) + (b - b) * fst p)%Qc) l = map (fun _ => (- e)%Qc) l) as Em by (apply map_ext; intros p; ring).
  rewrite Em, total_squares_same in Hle. fold n in Hle. rewrite ER in Hle.
  match type of Hle with (_ <= ?r)%Qc => replace r with (squared_error l a b - n * (e * e))%Qc in Hle by ring end.
  apply Qc_le_minus in Hle.
  assert (total (ReduceSpec.squares (map (fun _ => e) l)) = Q2Qc 0) as Hz.
  { rewrite total_squares_same. fold n. apply Qcle_antisym; [exact Hle|]. unfold n. rewrite <- total_squares_same. clear. induction l as [|p l IH]; [apply Qcle_refl|].
    cbn [map ReduceSpec.squares]. rewrite ClimLine.total_cons. unfold ReduceSpec.squares in IH. replace (Q2Qc 0) with (Q2Qc 0 + Q2Qc 0)%Qc by ring. apply Qcplus_le_compat; [apply square_nonneg|exact IH]. }
  assert (e = Q2Qc 0) as E0.
  { apply (squares_zero _ Hz). destruct l as [|p l]; [congruence|now left]. }
  rewrite ER, E0. ring.
Qed.

Lemma remove_app_last {X} (l : list X) (c : X) n : n = length l -> remove_at (l ++ [c]) n = l.
Proof. intros ->. induction l as [|a l IH]; [reflexivity|]. cbn. now f_equal. Qed.
Lemma set_at_back {X} (l : list X) i x y : nth_error l i = Some x -> set_at (set_at l i y) i x = l.
Proof. revert i. induction l as [|a l IH]; intros [|i] H; cbn in *; try discriminate; [now injection H as ->|]. f_equal. now apply IH. Qed.
Lemma set_at_app {X} (l r : list X) i x : (i < length l)%nat -> set_at (l ++ r) i x = set_at l i x ++ r.
Proof. revert i. induction l as [|a l IH]; intros [|i] H; cbn in *; try lia; [reflexivity|]. f_equal. apply IH. lia. Qed.
Lemma In_like k t i : 0 <= i < zlen (t_dates t) -> In i (like k t i).
Proof. intros H. apply filter_In. split; [apply IntgrProofs.In_arange1; lia|]. now destruct list_eq_dec. Qed.
Lemma moved_own (p : list Z) d : moved p d (nth d p 0) = p.
Proof. unfold moved. revert d. induction p as [|x p IH]; intros [|d]; cbn; [reflexivity..|]. now rewrite IH. Qed.

(** detrend takes from every datum the value, at its time, of the line with the least squared error through all the data of the same month,
    day, hour, ... (if there are at least two) *)
Theorem C67_detrend : forall env lexsort junk MAX, env_ok env -> lexsort_ok lexsort -> 1 <= MAX -> forall coef x D ti t,
  responds env x D -> (forall a, In a (var_axes x) -> tight_axis a) -> time_axis x ti t -> can_group Clim (t_mask t) -> my (t_mask t) = true -> 1 < zlen (t_dates t) ->
  separate (var_axes x ++ [coef]) -> axis_len coef = 2 -> (forall s, coef <> Time s) ->
  exists y E, detrend env lexsort junk MAX coef x = Some y /\ var_axes y = var_axes x /\ computes env y E /\
    forall p fs, position (var_shape x) p ->
      let T := like (kept Clim (t_mask t)) t (nth ti p 0) in
      group_of D (kept Clim (t_mask t)) t ti p = map Fin fs -> 1 < zlen T ->
      exists a b v, best_line (combine (map (time_seconds t) T) fs) a b /\ D p = Fin v /\ E p = Fin (v - (a + b * time_seconds t (nth ti p 0%Z)))%Qc.
Proof.
  intros env lexsort junk MAX Henv Hlex HMAX coef x D ti t Hx Htight Htime Hcan Hyear H1t Hsep H2 Hcoef.
  assert (Forall good_axis (var_axes x)) as Hgood by (apply Forall_forall; intros a Ha; apply (Htight a Ha)).
  destruct (C27_trend env lexsort junk MAX Henv Hlex HMAX coef Clim x D ti t Hx Hgood Htime Hcan H1t Hsep H2 Hcoef) as (y0 & u & D' & Ey0 & Gu & Hgr & Eax0 & [Hy0 _] & Hline).
  destruct (load_responds env Henv junk y0 D' Hy0) as (y & Ey & Eax & Hy). rewrite Eax0 in Eax.
  assert (kept Clim (t_mask t) <> t_mask t) as Hne.
  { intros K. apply (f_equal my) in K. cbn in K. rewrite Hyear in K. discriminate. }
  destruct (found env Henv x ti t Htime Htight u Gu _ Hgr (kept_sub _ _) Hne) as (gm & Hco & Hmap). pose proof Htime as [Ht Ho]. pose proof Hgr as (_ & _ & H3 & _).
  pose proof (ti_lt (var_axes x) ti t Ht) as Hlt.
  assert (good_axis (Time t)) as Gt0 by exact (Gt x ti t Htime Htight).
  destruct (seconds_spec env t Gt0) as (secs & Esecs & Eseca & Hsecs).
  set (clim := Var (var_axes x) (GetView (from_trend_view env junk y coef secs))).
  assert (detrend env lexsort junk MAX coef x = ufunc_var env junk np_subtract [AVar x; AVar clim]) as Ed.
  { unfold detrend. rewrite Ey0. cbn [bind]. rewrite Ey. cbn [bind]. rewrite (time_index_at (var_axes x) ti t Ht Ho). cbn [bind].
    unfold from_trend. rewrite Eax.
    rewrite (time_index_at (set_at (var_axes x) ti (Time u) ++ [coef]) ti u).
    2:{ rewrite nth_error_app1 by (rewrite set_at_length; exact Hlt). rewrite nth_error_set_at by exact Hlt. now rewrite Nat.eqb_refl. }
    2:{ intros i s Hi. destruct (Nat.lt_ge_cases i (length (set_at (var_axes x) ti (Time u)))) as [Hl|Hl].
        - rewrite nth_error_app1 in Hi by exact Hl. rewrite nth_error_set_at in Hi by exact Hlt. destruct (Nat.eqb_spec ti i); [congruence|]. now apply (Ho i s).
        - rewrite nth_error_app2 in Hi by exact Hl. destruct (i - length (set_at (var_axes x) ti (Time u)))%nat as [|[|]]; try discriminate. injection Hi as Hi. now apply Hcoef in Hi. }
    cbn [bind]. rewrite H3. cbn [kept tells_apart my]. rewrite andb_false_r. cbn [andb]. rewrite Esecs. cbn [bind].
    rewrite nth_error_app2 by (rewrite set_at_length; lia). rewrite set_at_length, Nat.sub_diag. cbn [nth_error bind]. rewrite Hmap. cbn [bind].
    rewrite set_at_app by (rewrite set_at_length; exact Hlt). rewrite set_at_back by exact Ht. rewrite remove_app_last by reflexivity. reflexivity. }
  assert (responds env clim (line_at ti t gm D')) as Hclim.
  { split; [exact (proj1 Hx)|]. cbn [var_axes var_source clim]. intros L HL.
    exact (line_view env Henv junk (var_axes x) coef Hsep H2 Hcoef ti t Ht Ho u gm Hco y D' Hy Eax secs Eseca Hsecs L HL). }
  set (E := fun q => np_subtract [D q; line_at ti t gm D' q]).
  exists (Var (var_axes x) (GetView (ufunc_view env junk np_subtract [AVar x; AVar clim]))), E. split.
  { rewrite Ed. unfold ufunc_var, variables. cbn [flat_map app map].
    rewrite (C30_order env Henv (var_axes x) [var_axes clim] Htight (proj1 Hx)); [reflexivity|]. constructor; [intros a Ha; exact Ha|constructor]. }
  split; [reflexivity|]. split.
  { apply (computed env Henv). split; [exact (proj1 Hx)|]. cbn [var_axes var_source]. intros L HL.
    destruct (responds_part env Henv junk x D L Hx HL) as (rx & Erx & Hrx). destruct (responds_part env Henv junk clim _ L Hclim HL) as (rc & Erc & Hrc).
    unfold ufunc_view. cbn [map]. change (var_axes clim) with (var_axes x) in Erc. rewrite Erx, Erc. cbn [sequence bind].
    destruct (apply_two np_subtract (map zlen L) L D (line_at ti t gm D') rx rc Hrx Hrc) as (w & Ew & Hw). exists w. split; [exact Ew|exact Hw]. }
  intros p fs Hp T Hfs HT. pose proof (in_time x ti t Htime Htight p Hp) as Hi.
  set (q := set_at p ti (znth gm (nth ti p 0))).
  assert (position (set_at (var_shape x) ti (zlen (t_dates u))) q) as Hq.
  { apply position_set; [exact Hp|]. pose proof (coarser_range _ _ _ Hco) as Hr. rewrite <- (time_len u Gu).
    apply (proj1 (Forall_forall _ _) Hr). unfold znth. apply nth_In. pose proof (coarser_len _ _ _ Hco). unfold IndexSpec.zlen in *. lia. }
  assert (nth ti q 0 = znth gm (nth ti p 0)) as Eq.
  { apply nth_set_at. pose proof (Forall2_len _ _ _ Hp) as HL. unfold var_shape in HL. rewrite map_length in HL. rewrite <- HL. exact Hlt. }
  destruct (Hline q fs Hq) as (a & b & Ea & Eb & Hbest).
  { rewrite Eq, (groups_like u t gm _ Hco Hi), H3. rewrite <- Hfs. unfold group_of. apply map_ext. intros i. unfold q. now rewrite moved_moved. }
  { rewrite Eq, (groups_like u t gm _ Hco Hi), H3. exact HT. }
  rewrite Eq, (groups_like u t gm _ Hco Hi), H3 in Hbest. fold T in Hbest.
  assert (In (D p) (map Fin fs)) as Hin.
  { rewrite <- Hfs. unfold group_of. apply in_map_iff. exists (nth ti p 0). split; [now rewrite moved_own|]. now apply In_like. }
  apply in_map_iff in Hin as (v & Ev & _). exists a, b, v. split; [exact Hbest|]. split; [now symmetry|].
  unfold E, line_at, np_subtract. cbv zeta. fold q. rewrite Ea, Eb, <- Ev. cbn [mul add sub neg]. f_equal. ring.
Qed.
Print Assumptions C67_detrend.

(** ... so that what is left has no mean: over the times of each group it adds up to 0 *)
Lemma total_residuals (t : taxis) (T : list Z) (fs : list Qc) a b : length fs = length T ->
  total (map (fun '(i, v) => (v - (a + b * time_seconds t i))%Qc) (combine T fs)) = total (map (rest a b) (combine (map (time_seconds t) T) fs)).
Proof.
  intros H. f_equal. revert fs H. induction T as [|i T IH]; intros [|v fs] H; try discriminate; [reflexivity|]. cbn [combine map rest]. f_equal. apply IH. now injection H.
Qed.
Lemma like_like k t i j : In j (like k t i) -> like k t j = like k t i /\ 0 <= j < zlen (t_dates t).
Proof.
  intros H. apply filter_In in H as [H1 H]. apply IntgrProofs.In_arange1 in H1. destruct list_eq_dec as [E|]; [|discriminate]. split; [|exact H1]. unfold like. now rewrite E.
Qed.
Lemma nth_moved (p : list Z) d i : (d < length p)%nat -> nth d (moved p d i) 0 = i.
Proof. intros H. unfold moved. now apply nth_set_at. Qed.
Lemma position_moved ns p d i n : position ns p -> nth_error ns d = Some n -> 0 <= i < n -> position ns (moved p d i).
Proof. intros H. unfold moved. revert d. induction H as [|m j ns p H Hp IH]; intros [|d] Hd Hi; cbn in *; try discriminate; constructor; try assumption; [injection Hd as ->; exact Hi|]. now apply IH. Qed.
Theorem C67_detrend_sum : forall env lexsort junk MAX, env_ok env -> lexsort_ok lexsort -> 1 <= MAX -> forall coef x D ti t,
  responds env x D -> (forall a, In a (var_axes x) -> tight_axis a) -> time_axis x ti t -> can_group Clim (t_mask t) -> my (t_mask t) = true -> 1 < zlen (t_dates t) ->
  separate (var_axes x ++ [coef]) -> axis_len coef = 2 -> (forall s, coef <> Time s) ->
  exists y E, detrend env lexsort junk MAX coef x = Some y /\ computes env y E /\
    forall p fs, position (var_shape x) p -> group_of D (kept Clim (t_mask t)) t ti p = map Fin fs -> 1 < zlen (like (kept Clim (t_mask t)) t (nth ti p 0)) ->
      exists es, group_of E (kept Clim (t_mask t)) t ti p = map Fin es /\ total es = Q2Qc 0.
Proof.
  intros env lexsort junk MAX Henv Hlex HMAX coef x D ti t Hx Htight Htime Hcan Hyear H1t Hsep H2 Hcoef.
  destruct (C67_detrend env lexsort junk MAX Henv Hlex HMAX coef x D ti t Hx Htight Htime Hcan Hyear H1t Hsep H2 Hcoef) as (y & E & Ey & _ & Hc & HE).
  exists y, E. split; [exact Ey|]. split; [exact Hc|]. intros p fs Hp Hfs HT. cbv zeta in HE.
  set (k := kept Clim (t_mask t)) in *. set (T := like k t (nth ti p 0)) in *.
  assert (ti < length p)%nat as Hlt.
  { pose proof (Forall2_len _ _ _ Hp) as HL. unfold var_shape in HL. rewrite map_length in HL. rewrite <- HL. apply nth_error_Some. rewrite (proj1 Htime). discriminate. }
  assert (length fs = length T) as Hlen by (apply (f_equal (@length _)) in Hfs; unfold group_of in Hfs; rewrite !map_length in Hfs; now symmetry).
  destruct (HE p fs Hp Hfs HT) as (a & b & _ & Hbest & _).
  assert (forall j, In j T -> exists v, D (moved p ti j) = Fin v /\ E (moved p ti j) = Fin (v - (a + b * time_seconds t j))%Qc) as Hj.
  { intros j Hj. apply like_like in Hj as [El Bj].
    assert (position (var_shape x) (moved p ti j)) as Hpj.
    { apply (position_moved _ _ _ _ (axis_len (Time t)) Hp); [unfold var_shape; rewrite nth_error_map, (proj1 Htime); reflexivity|]. rewrite (time_len t (Gt x ti t Htime Htight)). exact Bj. }
    destruct (HE (moved p ti j) fs Hpj) as (a' & b' & v & Hbest' & Ev & EE).
    - unfold group_of. rewrite nth_moved by exact Hlt. rewrite El. rewrite <- Hfs. unfold group_of. apply map_ext. intros i. unfold moved at 2. apply (f_equal D), moved_moved.
    - rewrite nth_moved by exact Hlt. now rewrite El.
    - rewrite nth_moved in Hbest' by exact Hlt. rewrite El in Hbest'. fold T in Hbest'. rewrite nth_moved in EE by exact Hlt.
      exists v. split; [exact Ev|]. destruct (Hbest a' b') as [L1 U1]. destruct (Hbest' a b) as [L2 _].
      destruct (U1 (Qcle_antisym _ _ L2 L1)) as [-> ->]. exact EE. }
  exists (map (fun '(i, v) => (v - (a + b * time_seconds t i))%Qc) (combine T fs)). split.
  - unfold group_of in Hfs |- *. fold T in Hfs |- *. clearbody T. clear - Hj Hfs. revert fs Hfs. induction T as [|j T IH]; intros [|v fs] Hfs; try discriminate; [reflexivity|].
    cbn [map combine] in *. injection Hfs as E1 E2. f_equal; [|apply IH; [intros i Hi; apply Hj; now right|exact E2]].
    destruct (Hj j (or_introl eq_refl)) as (v' & E3 & E4). rewrite E4. rewrite E1 in E3. injection E3 as ->. reflexivity.
  - rewrite total_residuals by exact Hlen. apply best_sum; [exact Hbest|].
    intros K. apply (f_equal (@length _)) in K. rewrite combine_length, map_length, Hlen, Nat.min_id in K. unfold IndexSpec.zlen in HT. cbn in K. lia.
Qed.
Print Assumptions C67_detrend_sum.

(** *** the hypotheses are met *)
Lemma increasing_nil : ViewSpec.increasing [].
Proof. intros i j x y [H H']. destruct (Z.to_nat i); discriminate. Qed.
Lemma increasing_cons x l : ViewSpec.increasing l -> Forall (fun y => x < y) l -> ViewSpec.increasing (x :: l).
Proof.
  intros H HF i j a b [Hi Ha] [Hj Hb] Hij. replace (Z.to_nat j) with (S (Z.to_nat (j - 1))) in Hb by lia. cbn in Hb.
  destruct (Z.eq_dec i 0) as [->|Hne]; cbn in Ha.
  - injection Ha as <-. apply (proj1 (Forall_forall _ _) HF). eapply nth_error_In, Hb.
  - replace (Z.to_nat i) with (S (Z.to_nat (i - 1))) in Ha by lia. cbn in Ha. apply (H (i - 1) (j - 1)); [split; [lia|exact Ha]|split; [lia|exact Hb]|lia].
Qed.
Ltac selected :=
  repeat (apply Forall2_cons; [split; [discriminate|]; split;
    [apply Forall_forall; intros ? ?H; cbn in H; change (axis_len (Time days5)) with 5; change (axis_len lat2) with 2; lia
    |repeat (apply increasing_cons; [|apply Forall_forall; intros ? ?H; cbn in H; lia]); apply increasing_nil]|]); apply Forall2_nil.
Lemma daily_tight a : In a (var_axes daily) -> tight_axis a.
Proof.
  intros [<-|[<-|[]]]; (split; [|try exact Logic.I]); [exact (Forall_inv field_good)|vm_compute; discriminate|exact days5_good].
Qed.
Lemma no_year : kept Clim (t_mask days5) <> t_mask days5.
Proof. discriminate. Qed.
Definition anomalies : option (var axis num) :=
  match time_op row_sort Clim (mean_view env0 row_sort zs 3) daily with Some m => ufunc_var env0 zs np_subtract [AVar daily; AVar m] | None => None end.
Definition anomalies_loaded : option (var axis num) :=
  match time_op row_sort Clim (mean_view env0 row_sort zs 3) daily with
  | Some m => match load env0 m zs with Some l => ufunc_var env0 zs np_subtract [AVar daily; AVar l] | None => None end
  | None => None
  end.
Example C67_part_used : exists m y E r, time_op row_sort Clim (mean_view env0 row_sort zs 3) daily = Some m /\ ufunc_var env0 zs np_subtract [AVar daily; AVar m] = Some y /\
  (forall p, position (var_shape daily) p -> exists w, float_mean (group_of readings (kept Clim (t_mask days5)) days5 1 p) w /\ E p = sub (readings p) w) /\
  ViewModel.get (axis_ops env0) zs (view_of_inds (var_axes daily) [[1]; [0; 3; 4]]) y true true = Some r /\ array_is r [1; 3] (fun p => E (gather [[1]; [0; 3; 4]] p)).
Proof.
  destruct C27_used as (m & Em & Hm).
  destruct (C67_part_partial env0 env0_ok zs np_subtract Clim daily readings 1 days5 m float_mean daily_responds daily_tight daily_time no_year Hm) as (y & E & Ey & _ & HE & Hr).
  destruct (Hr [[1]; [0; 3; 4]]) as (r & H1 & H2).
  - selected.
  - right. exists 0, 3. split; [now left|]. split; [now right; left|]. vm_compute. discriminate.
  - exists m, y, E, r. auto.
Qed.
Example C67_loaded_used : exists m l y E, time_op row_sort Clim (mean_view env0 row_sort zs 3) daily = Some m /\ load env0 m zs = Some l /\
  ufunc_var env0 zs np_subtract [AVar daily; AVar l] = Some y /\ computes env0 y E.
Proof.
  destruct C27_used as (m & Em & Hm).
  destruct (C67_loaded env0 env0_ok zs np_subtract Clim daily readings 1 days5 m float_mean daily_responds daily_tight daily_time no_year Hm) as (l & y & E & El & Ey & _ & _ & Hc).
  exists m, l, y, E. auto.
Qed.
Example C67_example :
  show anomalies [[0]; [0; 1; 2; 3; 4]] [[0; 0]; [0; 1]; [0; 2]; [0; 3]; [0; 4]] = Some ([1; 5], [Some (-20); Some (-40); Some 20; Some 40; Some 0]%Q) /\
  show anomalies [[0]; [2]] [[0; 0]] = Some ([1; 1], [Some 20]%Q) /\
  show anomalies_loaded [[0]; [0; 2]] [[0; 0]; [0; 1]] = Some ([1; 2], [Some (-20); Some 20]%Q) /\
  show (detrend env0 row_sort zs 2 coef2 (source [Time days5] steadily)) [[0; 2; 3]] [[0]; [1]; [2]] = Some ([3], [Some 0; Some 0; Some 0]%Q).
Proof. repeat split; vm_compute; reflexivity. Qed.
Example C67_detrend_used : exists y E, detrend env0 row_sort zs 3 coef2 daily = Some y /\ computes env0 y E /\
  exists es, group_of E (kept Clim (t_mask days5)) days5 1 [0; 2] = map Fin es /\ zlen es = 2 /\ total es = Q2Qc 0.
Proof.
  destruct (C67_detrend_sum env0 row_sort zs 3 env0_ok row_sort_ok ltac:(lia) coef2 daily readings 1%nat days5) as (y & E & Ey & Hc & HE).
  - exact daily_responds.
  - exact daily_tight.
  - exact daily_time.
  - apply daily_groups. discriminate.
  - reflexivity.
  - vm_compute. reflexivity.
  - intros [|[|[|i]]] [|[|[|j]]] a b Ha Hb Hne; cbn in Ha, Hb; try (exfalso; apply Hne; reflexivity); try (destruct i; discriminate); try (destruct j; discriminate);
      injection Ha as <-; injection Hb as <-; vm_compute; auto.
  - reflexivity.
  - discriminate.
  - exists y, E. split; [exact Ey|]. split; [exact Hc|].
    destruct (HE [0; 2] [Q2Qc (inject_Z 0); Q2Qc (inject_Z 40)]) as (es & H1 & H2).
    + repeat constructor; vm_compute; auto; discriminate.
    + vm_compute. reflexivity.
    + vm_compute. reflexivity.
    + exists es. split; [exact H1|]. split; [|exact H2]. apply (f_equal (@length _)) in H1. rewrite map_length in H1.
      unfold group_of in H1. rewrite map_length in H1. unfold IndexSpec.zlen. rewrite <- H1. vm_compute. reflexivity.
Qed.

(** *** with a climatology that is not in memory, a part that lies in one group is wrong *)
(** the climatology is then asked for one and the same element several times (view.get compares the elements it needs with their unique ones,
    and numpy stretches the one unique element): it answers with one element and fills the others with zeros *)
Theorem C67_part_refuted : exists env junk g x D ti t m P,
  env_ok env /\ responds env x D /\ (forall a, In a (var_axes x) -> tight_axis a) /\ time_axis x ti t /\ kept g (t_mask t) <> t_mask t /\ climatology env g x D ti t m P /\
  exists y E inds r p, ufunc_var env junk np_subtract [AVar x; AVar m] = Some y /\
    (forall p, position (var_shape x) p -> exists w, P (group_of D (kept g (t_mask t)) t ti p) w /\ E p = np_subtract [D p; w]) /\
    Forall2 selection (var_axes x) inds /\ ViewModel.get (axis_ops env) junk (view_of_inds (var_axes x) inds) y true true = Some r /\
    position (map zlen inds) p /\ val r p <> E (gather inds p).
Proof.
  destruct C27_used as (m & Em & Hm).
  destruct (C67_part_partial env0 env0_ok zs np_subtract Clim daily readings 1 days5 m float_mean daily_responds daily_tight daily_time no_year Hm) as (y & E & Ey & Eax & HE & _).
  exists env0, zs, Clim, daily, readings, 1%nat, days5, m, float_mean.
  split; [exact env0_ok|]. split; [exact daily_responds|]. split; [exact daily_tight|]. split; [exact daily_time|]. split; [exact no_year|]. split; [exact Hm|].
  assert (show anomalies [[0]; [0; 2]] [[0; 1]] = Some ([1; 2], [Some 0]%Q)) as Hs by (vm_compute; reflexivity).
  unfold anomalies in Hs. rewrite Em, Ey in Hs. unfold show in Hs. rewrite Eax in Hs.
  destruct (ViewModel.get (axis_ops env0) zs (view_of_inds (var_axes daily) [[0]; [0; 2]]) y true true) as [r|] eqn:Er; [|discriminate].
  exists y, E, [[0]; [0; 2]], r, [0; 1]. split; [exact Ey|]. split; [exact HE|]. split.
  { selected. }
  split; [exact Er|]. split; [repeat constructor; vm_compute; auto; discriminate|].
  cbn [option_map map] in Hs.
  assert (number (val r [0; 1]) = Some 0%Q) as Hn by congruence. clear Hs Er.
  destruct (HE [0; 2]) as (w & [_ Hw] & HEw); [repeat constructor; vm_compute; auto; discriminate|].
  change (gather [[0]; [0; 2]] [0; 1]) with [0; 2]. rewrite HEw.
  rewrite (Hw [Q2Qc (inject_Z 0); Q2Qc (inject_Z 40)] eq_refl). intros K. rewrite K in Hn. vm_compute in Hn. discriminate.
Qed.
Print Assumptions C67_part_refuted.
