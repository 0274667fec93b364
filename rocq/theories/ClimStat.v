(** Lemmas for the climatologies: the statistics of each group. *)
From Coq Require Import ZArith List Bool Lia ZifyBool Permutation QArith_base Qcanon Field.
From Verif Require Import CalModel CalSpec TimeSearchModel TimeSearchSpec TimeSearchProofs TimeMapProofs TimeDateProofs SortSpec IndexModel IndexSpec IndexProofs ArrModel ArrProofs
  ViewModel ViewSpec ViewProofs AxisModel AxisSpec AxisProofs VarOpsModel VarOpsSpec VarOpsProofs NumModel NumProofs ReduceModel ReduceSpec StatProofs UfuncModel UfuncView StencilModel StencilSpec StencilProofs StencilProps IntgrProofs
  RespondProofs ChunkProofs LoopProofs BlockProofs FlattenProofs InterpView SmoothView CompositeProofs ConcatProofs ClimModel ClimSpec ClimSum ClimAxis ClimChunk ClimView ClimTotal.
Import ListNotations.
Open Scope Z_scope.
Notation zlen := IndexSpec.zlen.
Notation znth := ArrModel.znth.

Definition valid_only (skip : num -> bool) (l : list num) : list num := filter (fun v => negb (skip v)) l.
Lemma total_wsum skip l : ClimSum.total add zero (map (wsum skip) l) = np_sum (valid_only skip l).
Proof.
  unfold ClimSum.total, np_sum, valid_only. induction l as [|v l IH]; [reflexivity|]. cbn [map fold_right filter]. rewrite IH. unfold wsum. destruct (skip v); cbn [negb fold_right]; [apply add_0_l|reflexivity].
Qed.
Lemma total_wcount skip l : ClimSum.total Z.add 0 (map (wcount skip) l) = zlen (valid_only skip l).
Proof.
  unfold ClimSum.total, valid_only. induction l as [|v l IH]; [reflexivity|]. cbn [map fold_right filter]. rewrite IH. unfold wcount, zlen. destruct (skip v); cbn [negb length]; lia.
Qed.
Lemma valid_never l : valid_only never l = l.
Proof. unfold valid_only. induction l as [|v l IH]; [reflexivity|]. cbn. f_equal. exact IH. Qed.
Lemma zip_same {V W X} (f : V -> W -> X) (a : arr V) (b : arr W) s : shape a = s -> shape b = s -> Forall (fun n => 0 <= n) s ->
  exists r, zip_to f a b = Some r /\ shape r = s /\ forall p, position s p -> val r p = f (val a p) (val b p).
Proof.
  intros Ha Hb Hs. unfold zip_to. destruct (broadcast_fits b (shape a)) as (b' & E & _ & Vb); [rewrite Ha, Hb; apply fits_refl|]. rewrite E.
  eexists. split; [reflexivity|]. split; [exact Ha|]. intros p Hp. cbn [val]. rewrite Vb. fold (squash (shape b) p). now rewrite Hb, squash_own.
Qed.

Section View.
Context (env : axenv) (Henv : env_ok env) (lexsort : list (list Z) -> list Z) (Hlex : lexsort_ok lexsort) (junk : list Z -> num) (MAX : Z) (HMAX : 1 <= MAX).
Notation ops := (axis_ops env).
Notation var := (ViewModel.var axis num).
Notation get := (ViewModel.get ops junk).
Context (A : list axis) (Hsep : separate A) (Hgood : Forall good_axis A) (ti : nat) (t : taxis) (Ht : nth_error A ti = Some (Time t))
        (Honly : forall i s, nth_error A i = Some (Time s) -> i = ti)
        (u : taxis) (Hu : good_axis (Time u)) (Hcl : t_class u = t_class t) (Hsub : mask_sub (t_mask u) (t_mask t) = true)
        (Hin : forall r, In r (records (t_mask u) u) -> In r (records (t_mask u) t)).
Notation A' := (set_at A ti (Time u)).
Context (K : list (list Z)) (HK : Forall2 selection A' K).
Notation Kt := (nth ti K []).

(** the values of the group *)
Definition group (G : list Z -> num) (q : list Z) : list num := map (fun i => G (set_at q ti i)) (times_on t u (nth ti q 0)).
Lemma nth_K p : position (map zlen K) p -> nth ti (gather K p) 0 = znth Kt (nth ti p 0).
Proof.
  intros Hp. apply nth_gather'; [apply Forall2_len in Hp; rewrite map_length in Hp; lia|]. apply nth_error_nth'. rewrite (K_len A ti u K HK). exact (ti_lt A ti t Ht).
Qed.
Lemma K_nonneg : Forall (fun n => 0 <= n) (map zlen K).
Proof. apply Forall_map, Forall_forall. intros l _. unfold zlen. lia. Qed.
Notation makes := (makes env junk A ti t u K).
Lemma sums_group skip f x rest G : var_axes x = A -> makes x rest f G ->
  exists r, sums env lexsort junk MAX skip f (x :: rest) ti (view_of_inds A' K) = Some r /\
    array_is r (map zlen K) (fun p => np_sum (valid_only skip (group G (gather K p)))).
Proof.
  intros Hx HG. destruct (sums_spec env Henv lexsort Hlex junk MAX HMAX A Hgood ti t Ht Honly u Hu Hcl Hsub Hin K HK skip f x rest G Hx HG) as (r & Hr & Hs & Hv).
  exists r. split; [exact Hr|]. split; [exact Hs|]. intros p Hp. rewrite (Hv p Hp). unfold group. rewrite (nth_K p Hp), <- total_wsum, map_map. reflexivity.
Qed.
Lemma counts_group skip f x rest G : var_axes x = A -> makes x rest f G ->
  exists r, counts env lexsort junk MAX skip f (x :: rest) ti (view_of_inds A' K) = Some r /\
    array_is r (map zlen K) (fun p => zlen (valid_only skip (group G (gather K p)))).
Proof.
  intros Hx HG. destruct (counts_spec env Henv lexsort Hlex junk MAX HMAX A Hgood ti t Ht Honly u Hu Hcl Hsub Hin K HK skip f x rest G Hx HG) as (r & Hr & Hs & Hv).
  exists r. split; [exact Hr|]. split; [exact Hs|]. intros p Hp. rewrite (Hv p Hp). unfold group. rewrite (nth_K p Hp), <- total_wcount, map_map. reflexivity.
Qed.

Lemma means_group f x rest G : var_axes x = A -> makes x rest f G ->
  exists r, means env lexsort junk MAX f (x :: rest) ti (view_of_inds A' K) = Some r /\
    array_is r (map zlen K) (fun p => div (np_sum (group G (gather K p))) (num_of_Z (zlen (group G (gather K p))))).
Proof.
  intros Hx HG. destruct (sums_group never f x rest G Hx HG) as (s & Es & Hs & Vs). destruct (counts_group never f x rest G Hx HG) as (n & En & Hn & Vn).
  unfold means. rewrite Es, En. cbn [bind]. destruct (zip_same (fun s n => div s (num_of_Z n)) s n _ Hs Hn K_nonneg) as (r & Hr & Sr & Vr). exists r. split; [exact Hr|]. split; [exact Sr|].
  intros p Hp. rewrite (Vr p Hp), (Vs p Hp), (Vn p Hp), valid_never. reflexivity.
Qed.

Section One.
Context (x : var) (D : list Z -> num) (Hx : responds env x D) (EA : var_axes x = A).
Notation mdata := (makes_data env Henv junk A Hsep Hgood ti t Ht Honly u Hu Hin K HK x D Hx EA).
Notation msquares := (makes_squares env Henv junk A Hsep Hgood ti t Ht Honly u Hu Hin K HK x D Hx EA).
Lemma mean_group : exists r, mean_view env lexsort junk MAX x ti (view_of_inds A' K) = Some r /\
  array_is r (map zlen K) (fun p => div (np_sum (group D (gather K p))) (num_of_Z (zlen (group D (gather K p))))).
Proof. exact (means_group the_data x [] D EA mdata). Qed.
Lemma nanmean_group : exists r, nanmean_view env lexsort junk MAX x ti (view_of_inds A' K) = Some r /\
  array_is r (map zlen K) (fun p => div (np_sum (not_nans (group D (gather K p)))) (nan_count (zlen (not_nans (group D (gather K p)))))).
Proof.
  destruct (sums_group is_nan the_data x [] D EA mdata) as (s & Es & Hs & Vs). destruct (counts_group is_nan the_data x [] D EA mdata) as (n & En & Hn & Vn).
  unfold nanmean_view. rewrite Es, En. cbn [bind]. destruct (zip_same (fun s n => div s (nan_count n)) s n _ Hs Hn K_nonneg) as (r & Hr & Sr & Vr). exists r. split; [exact Hr|]. split; [exact Sr|].
  intros p Hp. rewrite (Vr p Hp), (Vs p Hp), (Vn p Hp). reflexivity.
Qed.
Lemma count_group : exists r, count_view env lexsort junk MAX x ti (view_of_inds A' K) = Some r /\
  array_is r (map zlen K) (fun p => num_of_Z (zlen (not_nans (group D (gather K p))))).
Proof.
  destruct (counts_group is_nan the_data x [] D EA mdata) as (n & En & Hn & Vn). unfold count_view. rewrite En. eexists. split; [reflexivity|]. split; [exact Hn|].
  intros p Hp. cbn [val map_arr]. now rewrite (Vn p Hp).
Qed.
Lemma group_squares q : group (fun q => mul (D q) (D q)) q = map (fun v => mul v v) (group D q).
Proof. unfold group. now rewrite map_map. Qed.
Lemma stdev_group sqrt : exists r, stdev_view env lexsort junk MAX sqrt x ti (view_of_inds A' K) = Some r /\
  array_is r (map zlen K) (fun p => let l := group D (gather K p) in sqrt (spread (np_sum (map (fun v => mul v v) l)) (np_sum l) (num_of_Z (zlen l)))).
Proof.
  destruct (sums_group never squared x [] _ EA msquares) as (xx & Exx & Hxx & Vxx).
  destruct (sums_group never the_data x [] D EA mdata) as (s & Es & Hs & Vs). destruct (counts_group never the_data x [] D EA mdata) as (n & En & Hn & Vn).
  unfold stdev_view. rewrite Exx, Es, En. cbn [bind]. destruct (zip_same (fun s n => (s, num_of_Z n)) s n _ Hs Hn K_nonneg) as (r & Hr & Sr & Vr). rewrite Hr. cbn [bind].
  destruct (zip_same (fun xx '(x, n) => sqrt (spread xx x n)) xx r _ Hxx Sr K_nonneg) as (r' & Hr' & Sr' & Vr'). exists r'. split; [exact Hr'|]. split; [exact Sr'|].
  intros p Hp. cbv zeta. rewrite (Vr' p Hp), (Vr p Hp), (Vs p Hp), (Vn p Hp), (Vxx p Hp), !valid_never, group_squares. reflexivity.
Qed.
Lemma nanstdev_group sqrt : exists r, nanstdev_view env lexsort junk MAX sqrt x ti (view_of_inds A' K) = Some r /\
  array_is r (map zlen K) (fun p => let l := not_nans (group D (gather K p)) in sqrt (spread (np_sum (map (fun v => mul v v) l)) (np_sum l) (nan_count (zlen l)))).
Proof.
  destruct (sums_group is_nan squared x [] _ EA msquares) as (xx & Exx & Hxx & Vxx).
  destruct (sums_group is_nan the_data x [] D EA mdata) as (s & Es & Hs & Vs). destruct (counts_group is_nan the_data x [] D EA mdata) as (n & En & Hn & Vn).
  unfold nanstdev_view. rewrite Exx, Es, En. cbn [bind]. destruct (zip_same (fun s n => (s, nan_count n)) s n _ Hs Hn K_nonneg) as (r & Hr & Sr & Vr). rewrite Hr. cbn [bind].
  destruct (zip_same (fun xx '(x, n) => sqrt (spread xx x n)) xx r _ Hxx Sr K_nonneg) as (r' & Hr' & Sr' & Vr'). exists r'. split; [exact Hr'|]. split; [exact Sr'|].
  intros p Hp. cbv zeta. rewrite (Vr' p Hp), (Vr p Hp), (Vs p Hp), (Vn p Hp), (Vxx p Hp), group_squares.
  assert (forall l, valid_only is_nan (map (fun v => mul v v) l) = map (fun v => mul v v) (not_nans l)) as E.
  { unfold valid_only, not_nans. induction l as [|v l IH]; [reflexivity|]. cbn [map filter]. rewrite IH. destruct v; cbn [is_nan mul negb map]; try reflexivity. }
  rewrite E. reflexivity.
Qed.
End One.
End View.

(** *** the variable *)
Lemma kept_remaining g k : remaining g k = kept g k.
Proof. destruct g, k as [a b c d e f]; destruct a, b, c, d, e, f; reflexivity. Qed.
Lemma kept_sub g k : mask_sub (kept g k) k = true.
Proof. destruct g, k as [a b c d e f]; destruct a, b, c, d, e, f; reflexivity. Qed.
Lemma can_group_needed g k : can_group g k <-> needed g k = true /\ no_field (remaining g k) = false.
Proof.
  unfold can_group. rewrite <- kept_remaining, <- some_no_field. destruct g; cbn [needed]; tauto.
Qed.
Lemma outtime_spec lexsort (Hlex : lexsort_ok lexsort) g t : good_axis (Time t) -> can_group g (t_mask t) ->
  exists u, get_outtime lexsort g t = Some u /\ good_axis (Time u) /\ groups (kept g (t_mask t)) t u.
Proof.
  intros Hg Hc. pose proof Hc as [Hn _]%can_group_needed. unfold get_outtime. rewrite Hn, kept_remaining.
  destruct (modify_spec lexsort Hlex t (kept g (t_mask t)) Hg (proj1 Hc) (kept_sub _ _)) as (u & Eu & Gu & H1 & H2 & H3 & H4 & H5). exists u. split; [exact Eu|]. split; [exact Gu|].
  unfold groups. auto.
Qed.
Theorem outtime_none lexsort g t : ~ can_group g (t_mask t) -> get_outtime lexsort g t = None.
Proof.
  rewrite can_group_needed. intros H. unfold get_outtime. destruct (needed g (t_mask t)); [|reflexivity]. unfold modify. destruct (no_field (remaining g (t_mask t))) eqn:E; [reflexivity|].
  exfalso. apply H. auto.
Qed.

Section Var.
Context (env : axenv) (Henv : env_ok env) (lexsort : list (list Z) -> list Z) (Hlex : lexsort_ok lexsort) (junk : list Z -> num) (MAX : Z) (HMAX : 1 <= MAX).
Notation var := (ViewModel.var axis num).
Theorem made_climatology g x D ti t (getview : var -> nat -> view axis -> option (arr num)) (F : list num -> num) (P : list num -> num -> Prop) :
  responds env x D -> Forall good_axis (var_axes x) -> time_axis x ti t -> can_group g (t_mask t) ->
  (forall u, good_axis (Time u) -> t_class u = t_class t -> mask_sub (t_mask u) (t_mask t) = true -> (forall r, In r (records (t_mask u) u) -> In r (records (t_mask u) t)) ->
     forall K, Forall2 selection (set_at (var_axes x) ti (Time u)) K ->
     exists r, getview x ti (view_of_inds (set_at (var_axes x) ti (Time u)) K) = Some r /\ array_is r (map zlen K) (fun p => F (group ti t u D (gather K p)))) ->
  (forall u q, groups (kept g (t_mask t)) t u -> 0 <= nth ti q 0 < zlen (t_dates u) -> group ti t u D q <> [] -> P (group ti t u D q) (F (group ti t u D q))) ->
  exists y, time_op lexsort g getview x = Some y /\ climatology env g x D ti t y P.
Proof.
  intros Hx Hgood [Ht Honly] Hc Hview HP. pose proof (nth_error_In _ _ Ht) as Hin. pose proof (proj1 (Forall_forall _ _) Hgood _ Hin) as Gt.
  destruct (outtime_spec lexsort Hlex g t Gt Hc) as (u & Eu & Gu & Hgr). pose proof Hgr as (H1 & H2 & H3 & H4 & H5).
  unfold time_op. rewrite (time_index_at (var_axes x) ti t Ht Honly). cbn [bind]. rewrite Eu. cbn [bind].
  eexists. split; [reflexivity|]. exists u, (fun q => F (group ti t u D q)). split; [exact Gu|]. split; [exact Hgr|]. split; [reflexivity|].
  split.
  - apply (computed env Henv). split; cbn [var_axes var_source].
    + apply (A'_sep (var_axes x) (proj1 Hx) ti t Ht Honly u H1).
    + intros K HK. apply Hview; [exact Gu|exact H1|rewrite H3; apply kept_sub| |exact HK]. rewrite H3. intros r Hr. now apply H5.
  - intros q Hq. unfold var_shape in Hq. cbn [var_axes] in Hq. rewrite map_set_at in Hq.
    assert (0 <= nth ti q 0 < zlen (t_dates u)) as Bq.
    { apply (position_at _ _ _ _ Hq). rewrite nth_error_set_at by (rewrite map_length; apply nth_error_Some; congruence). now rewrite Nat.eqb_refl. }
    apply HP; [exact Hgr|exact Bq|]. unfold group. intros E. apply map_eq_nil in E.
    assert (In (record_of (t_mask u) u (nth ti q 0)) (records (t_mask u) t)) as Hr.
    { rewrite H3. apply H5. rewrite <- H3. apply nth_In. unfold records. rewrite map_length. unfold zlen in Bq. lia. }
    apply at_in in Hr as (i & Hi). apply record_at in Hi as [Bi Ei].
    assert (In i (times_on t u (nth ti q 0))) as K1.
    { apply filter_In. split; [apply In_arange1; lia|]. destruct list_eq_dec as [|N]; [reflexivity|]. exfalso. apply N. symmetry. exact Ei. }
    rewrite E in K1. destruct K1.
Qed.
End Var.
