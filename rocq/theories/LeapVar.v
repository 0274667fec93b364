From Coq Require Import ZArith List Bool QArith Qround Lia Permutation.
From Verif Require Import CalModel CalSpec CalProofs CalPyProofs TimeSearchModel TimeSearchSpec TimeDateProofs IndexModel IndexSpec ArrModel ViewModel ViewSpec AxisModel AxisSpec VarOpsModel VarOpsSpec SelectModel StencilModel StencilSpec ConcatModel ConcatAxis ClimModel.
From Verif Require Import SortSpec IndexProofs ArrProofs ViewProofs AxisProofs ChunkProofs VarOpsProofs VarOpsLemmas SelectProofs StencilProofs ClimAxis ClimView LeapModel LeapSpec LeapProofs LeapAxis.
Import ListNotations.
Open Scope Z_scope.
Notation zlen := IndexSpec.zlen.
Notation znth := ArrModel.znth.

Lemma mod_rem y k : 0 < k -> (y mod k =? 0) = (Z.rem y k =? 0).
Proof.
  intros Hk. apply eq_true_iff_eq. rewrite !Z.eqb_eq. rewrite Z.mod_divide by lia. symmetry. apply Z.rem_divide. lia.
Qed.
Lemma py_leap_is c y : py_leap c y = leapish c y.
Proof. destruct c; try reflexivity. unfold py_leap, leapish, isleap. now rewrite !mod_rem by lia. Qed.
Lemma leapish_spec c y : leapish c y = true <-> c = Std /\ leap_year y.
Proof. unfold leapish. destruct c; try (split; [discriminate|intros [E _]; discriminate]). rewrite isleap_spec. tauto. Qed.
Definition omitted (c : cal) (leap noleap : list Z) (y : Z) : list Z := if leapish c y then leap else noleap.
Lemma to_omit_is c leap noleap y out : to_omit c leap noleap y out <-> out = omitted c leap noleap y.
Proof.
  unfold to_omit, omitted. pose proof (leapish_spec c y) as H. destruct (leapish c y).
  - assert (c = Std /\ leap_year y) by tauto. tauto.
  - assert (~ (c = Std /\ leap_year y)) by (intros K; apply H in K; discriminate). tauto.
Qed.

Lemma tod_inj a b : valid_time a -> valid_time b -> tod a = tod b -> hour a = hour b /\ minute a = minute b /\ second a = second b.
Proof. intros (A1 & A2 & A3) (B1 & B2 & B3). unfold tod. lia. Qed.

Section Axis.
Context (env : axenv) (t : taxis) (leap noleap cls : list Z) (c' : cal).
Hypothesis Hc : t_cal t <> Yearless.
Hypothesis Hc' : c' <> Yearless.
Hypothesis Hk : my (t_mask t) = true.
Hypothesis Hv : Forall (valid_date (t_cal t)) (t_dates t).
Hypothesis Ho : in_year_order (t_dates t).
Hypothesis Hs : forall d, In d (t_dates t) -> sensible (t_cal t) c' leap noleap (year d).
Notation c := (t_cal t).
Notation out := (omitted c leap noleap).
Notation full_date := (complete (t_mask t)).

Definition keepb (d : date) : bool := left_in (out (year d)) (doyf c (full_date d)).
Hypothesis Hne : filter keepb (t_dates t) <> [].
Definition becomes (d e : date) : Prop :=
  valid_date c' e /\ year e = year d /\ doyf c' e = shift (out (year d)) (doyf c (full_date d)) /\ tod e = tod (full_date d).

Lemma full_valid d : In d (t_dates t) -> valid_date c (full_date d).
Proof. intros H. rewrite <- complete_eq. apply masked_valid. rewrite Forall_forall in Hv. now apply Hv. Qed.
Lemma out_ok y : In y (map year (t_dates t)) -> NoDup (out y) /\ Forall (fun o => 1 <= o <= ylen c y) (out y) /\ ylen c y - zlen (out y) <= ylen c' y.
Proof.
  intros Hy. apply in_map_iff in Hy as (d & <- & Hd). apply (Hs d Hd (out (year d)) (ylen c (year d)) (ylen c' (year d))).
  - now apply to_omit_is.
  - now apply year_length_fun.
  - now apply year_length_fun.
Qed.
Lemma years_in y : In y (years_of t) <-> In y (map year (t_dates t)).
Proof. apply unique_In. Qed.
Lemma dates_split : flat_map (fun y => filter (fun d => year d =? y) (t_dates t)) (years_of t) = t_dates t.
Proof.
  apply years_split; [apply unique_sorted|exact Ho|]. apply Forall_forall. intros d Hd. apply years_in. now apply in_map.
Qed.
Lemma flat_map_map {A B C} (f : A -> list B) (g : B -> C) l : map g (flat_map f l) = flat_map (fun a => map g (f a)) l.
Proof. induction l as [|a l IH]; [reflexivity|]. cbn [flat_map]. now rewrite map_app, IH. Qed.
Lemma flat_map_filter {A B} (f : A -> list B) (g : B -> bool) l : filter g (flat_map f l) = flat_map (fun a => filter g (f a)) l.
Proof. induction l as [|a l IH]; [reflexivity|]. cbn [flat_map]. now rewrite filter_app, IH. Qed.

Lemma doy_list : exists doy, option_map (@List.concat Q) (sequence (map (days_of t) (years_of t))) = Some doy /\ Forall2 is_day doy (map (item c (t_mask t)) (t_dates t)).
Proof.
  assert (exists qss, sequence (map (days_of t) (years_of t)) = Some qss /\
    Forall2 is_day (List.concat qss) (flat_map (fun y => map (item c (t_mask t)) (filter (fun d => year d =? y) (t_dates t))) (years_of t))) as (qss & E & H).
  { generalize (years_of t) as yrs. induction yrs as [|y ys IH]; [exists []; split; [reflexivity|constructor]|]. destruct IH as (qss & E & H). destruct (days_of_spec t y Hc Hk Hv) as (qs & Eq & Hq).
    exists (qs :: qss). cbn [map sequence]. rewrite Eq, E. split; [reflexivity|]. cbn [List.concat flat_map]. now apply Forall2_app. }
  exists (List.concat qss). rewrite E. split; [reflexivity|]. rewrite <- flat_map_map, dates_split in H. exact H.
Qed.
Lemma omit_list doy : Forall2 is_day doy (map (item c (t_mask t)) (t_dates t)) ->
  map (fun '(d, q) => existsb (Z.eqb (Qfloor q)) (if py_leap c (year d) then leap else noleap)) (combine (t_dates t) doy) = map (fun d => negb (keepb d)) (t_dates t).
Proof.
  revert doy. generalize (t_dates t) as dates. induction dates as [|d l IH]; intros doy H; [reflexivity|]. cbn [map] in H. inversion H as [|q it doy' its Hq Hr]; subst. cbn [combine map]. f_equal.
  - rewrite (day_floor _ _ Hq). cbn [item fst]. rewrite py_leap_is. unfold keepb, left_in. rewrite negb_involutive. reflexivity.
  - now apply IH.
Qed.

Lemma drop_items y l : Forall (fun d => year d = y) l -> drop (out y) (map (item c (t_mask t)) l) = map (fun d => (shift (out (year d)) (doyf c (full_date d)), tod (full_date d))) (filter keepb l).
Proof.
  induction 1 as [|d l Hd _ IH]; [reflexivity|]. unfold drop in *. cbn [map filter item]. unfold keepb at 1. rewrite Hd. destruct (left_in (out y) (doyf c (full_date d))); [|exact IH].
  cbn [map]. now rewrite IH, Hd.
Qed.
Lemma one_year y : In y (years_of t) -> exists p, bind (days_of t y) (fun doy => new_piece cls c' y (fold_left (fun l d => strip d l) (sorted_down (out y)) doy)) = Some p /\
  year_piece cls c' y (drop (out y) (map (item c (t_mask t)) (filter (fun d => year d =? y) (t_dates t)))) p /\
  Forall2 becomes (filter keepb (filter (fun d => year d =? y) (t_dates t))) (t_dates p).
Proof.
  intros Hy. apply years_in in Hy. destruct (out_ok y Hy) as (H1 & H2 & H3). destruct (days_of_spec t y Hc Hk Hv) as (qs & Eq & Hq). rewrite Eq. cbn [bind].
  pose proof (stripped (out y) qs _ H1 Hq) as Hst.
  assert (Forall (fun d => year d = y /\ In d (t_dates t)) (filter (fun d => year d =? y) (t_dates t))) as Hf.
  { apply Forall_forall. intros d Hd. apply filter_In in Hd as [Hd E]. apply Z.eqb_eq in E. auto. }
  assert (Forall (fun d => year d = y) (filter (fun d => year d =? y) (t_dates t))) as Hf' by (eapply Forall_impl; [|exact Hf]; cbn; tauto).
  destruct (new_piece_spec cls c' y _ _ Hc' Hst) as (p & Ep & Hp).
  { apply Forall_forall. intros it Hit. rewrite (drop_items y _ Hf') in Hit. apply in_map_iff in Hit as (d & <- & Hd). cbn [fst]. apply filter_In in Hd as [Hd Hb].
    rewrite Forall_forall in Hf. destruct (Hf d Hd) as [Ed Hd']. rewrite Ed. unfold keepb in Hb. rewrite Ed in Hb. apply left_in_spec in Hb.
    pose proof (doyf_range c (full_date d) Hc (full_valid d Hd')) as Hr. rewrite (complete_year _ _ Hk), Ed in Hr.
    pose proof (shift_range (out y) _ _ H1 H2 Hb Hr). lia. }
  exists p. split; [exact Ep|]. split; [exact Hp|]. destruct Hp as (_ & _ & _ & _ & _ & Hd & _). rewrite (drop_items y _ Hf') in Hd. rewrite Forall2_map_l in Hd.
  assert (Forall (fun d => year d = y) (filter keepb (filter (fun d => year d =? y) (t_dates t)))) as Hg.
  { apply Forall_forall. intros d Hd'. apply filter_In in Hd' as [Hd' _]. rewrite Forall_forall in Hf'. now apply Hf'. }
  revert Hd Hg. generalize (filter keepb (filter (fun d => year d =? y) (t_dates t))) as ds. generalize (t_dates p) as es. intros es ds Hd Hg.
  clear - Hd Hg. induction Hd as [|d e l l' K _ IH]; [constructor|]. inversion Hg as [|? ? E Hg']; subst. constructor; [|now apply IH].
  destruct K as (K1 & K2 & K3 & K4). repeat split; try assumption; apply K1.
Qed.

Lemma all_years : exists pieces u,
  sequence (map (fun y => bind (days_of t y) (fun doy => option_map Time (new_piece cls c' y (fold_left (fun l d => strip d l) (sorted_down (if py_leap c y then leap else noleap)) doy)))) (years_of t)) = Some pieces /\
  axis_concat env pieces = Some (Time u) /\ joined cls c' (t_dates u) u /\ Forall2 becomes (filter keepb (t_dates t)) (t_dates u).
Proof.
  assert (forall ys, (forall y, In y ys -> In y (years_of t)) -> exists ps,
    sequence (map (fun y => bind (days_of t y) (fun doy => option_map Time (new_piece cls c' y (fold_left (fun l d => strip d l) (sorted_down (if py_leap c y then leap else noleap)) doy)))) ys) = Some (map Time ps) /\
    length ps = length ys /\
    Forall (fun p => exists y its, year_piece cls c' y its p) ps /\
    Forall2 becomes (filter keepb (flat_map (fun y => filter (fun d => year d =? y) (t_dates t)) ys)) (List.concat (map t_dates ps))) as H.
  { induction ys as [|y ys IH]; intros Hin; [exists []; repeat split; constructor|]. destruct IH as (ps & E & L & H1 & H2); [intros z Hz; apply Hin; now right|].
    destruct (one_year y (Hin y (or_introl eq_refl))) as (p & Ep & Hp & Hd). exists (p :: ps).
    assert (bind (days_of t y) (fun doy => option_map Time (new_piece cls c' y (fold_left (fun l d => strip d l) (sorted_down (if py_leap c y then leap else noleap)) doy))) = Some (Time p)) as Ep'.
    { rewrite py_leap_is. change (if leapish c y then leap else noleap) with (out y). destruct (days_of t y); [|discriminate]. cbn [bind] in *. now rewrite Ep. }
    cbn [map sequence]. rewrite Ep', E. split; [reflexivity|]. split; [cbn; lia|]. split; [constructor; eauto|]. cbn [flat_map List.concat map]. rewrite filter_app. now apply Forall2_app. }
  destruct (H (years_of t) ltac:(auto)) as (ps & E & L & H1 & H2). rewrite dates_split in H2.
  assert (List.concat (map t_dates ps) <> []) as Hd by (intros K; rewrite K in H2; inversion H2; congruence).
  destruct (join_pieces env cls c' ps Hc') as (u & Eu & Hu); [|exact H1|exact Hd|].
  { intros ->. now apply Hd. }
  exists (map Time ps), u. split; [exact E|]. split; [exact Eu|]. pose proof Hu as (_ & _ & _ & _ & Ed & _). rewrite Ed. rewrite <- Ed at 1. rewrite Ed. split; [exact Hu|exact H2].
Qed.

End Axis.

Lemma becomes_relabelled t leap noleap c' d e : t_cal t <> Yearless -> c' <> Yearless -> my (t_mask t) = true -> valid_date (t_cal t) (complete (t_mask t) d) ->
  becomes t leap noleap c' d e -> relabelled (t_cal t) c' leap noleap (complete (t_mask t) d) e.
Proof.
  intros Hc Hc' Hk Hv (H1 & H2 & H3 & H4). destruct (tod_inj e (complete (t_mask t) d)) as (T1 & T2 & T3); [apply H1|apply Hv|exact H4|].
  split; [exact H1|]. split; [now rewrite (complete_year _ _ Hk)|]. split; [exact T1|]. split; [exact T2|]. split; [exact T3|].
  exists (omitted (t_cal t) leap noleap (year d)), (doyf (t_cal t) (complete (t_mask t) d)). split; [rewrite (complete_year _ _ Hk); now apply to_omit_is|].
  split; [apply doy_fun; [exact Hc|exact (valid_month _ _ Hc Hv)]|]. unfold shift in H3. rewrite <- H3. apply doy_fun; [exact Hc'|exact (valid_month _ _ Hc' H1)].
Qed.
Lemma keepb_spec t leap noleap d : t_cal t <> Yearless -> my (t_mask t) = true -> valid_date (t_cal t) (complete (t_mask t) d) ->
  keepb t leap noleap d = true <-> ~ left_out (t_cal t) leap noleap (complete (t_mask t) d).
Proof.
  intros Hc Hk Hv. unfold keepb. rewrite left_in_spec. unfold left_out. rewrite (complete_year _ _ Hk). pose proof (valid_month _ _ Hc Hv) as Hm. split; intros H K; apply H.
  - destruct K as (out & n & K1 & K2 & K3). apply to_omit_is in K1. subst out. rewrite <- (complete_year (t_mask t) d Hk) in K2. now rewrite <- (doy_is _ _ _ Hc Hm K2).
  - exists (omitted (t_cal t) leap noleap (year d)), (doyf (t_cal t) (complete (t_mask t) d)). split; [now apply to_omit_is|]. split; [|exact K].
    rewrite <- (complete_year (t_mask t) d Hk). now apply doy_fun.
Qed.

(** which elements *)
Lemma nonzero_elems {A} (f : A -> bool) (l : list A) : Forall2 (fun i d => elem l i d) (flatnonzero (map f l)) (filter f l).
Proof.
  unfold flatnonzero. assert (zlen (map f l) = zlen l) as -> by (unfold zlen; now rewrite map_length).
  assert (forall m pre, Forall2 (fun i d => elem (pre ++ m) i d) (map fst (filter snd (combine (arange (zlen pre) (zlen pre + zlen m) 1) (map f m)))) (filter f m)) as H.
  { induction m as [|a m IH]; intros pre; [rewrite IntgrProofs.arange_none by (unfold zlen; cbn; lia); constructor|].
    rewrite zlen_cons, IntgrProofs.arange_cons by (pose proof (zlen_nonneg m); lia). cbn [map combine filter snd].
    specialize (IH (pre ++ [a])). rewrite <- app_assoc in IH. cbn [app] in IH. rewrite zlen_app in IH. change (zlen [a]) with 1 in IH.
    replace (zlen pre + 1 + zlen m) with (zlen pre + (zlen m + 1)) in IH by lia.
    destruct (f a); [|exact IH]. cbn [map fst]. constructor; [|exact IH]. apply elem_app. right. split; [lia|]. rewrite Z.sub_diag. now apply elem_0. }
  exact (H l []).
Qed.
Lemma nonzero_facts {A} (f : A -> bool) (l : list A) : increasing (flatnonzero (map f l)) /\ in_range (zlen l) (flatnonzero (map f l)) /\
  forall i, In i (flatnonzero (map f l)) <-> exists d, elem l i d /\ f d = true.
Proof.
  assert (masks (zlen l) (map f l) (fun i => exists d, elem l i d /\ f d = true)) as H.
  { split; [unfold zlen; now rewrite map_length|]. intros i Hi. destruct (elem_ex l i Hi) as (d & Hd).
    assert (elem (map f l) i (f d)) as Hm by (apply elem_map; eauto).
    replace (nth (Z.to_nat i) (map f l) false) with (f d); [|destruct Hm as [_ Hm]; symmetry; now apply nth_error_nth].
    split; [eauto|]. intros (d' & Hd' & E). now rewrite (elem_fun _ _ _ _ Hd Hd'). }
  destruct (flatnonzero_spec _ _ _ H) as (H1 & H2 & H3). split; [exact H1|]. split; [exact H2|]. intros i. rewrite H3. split; [tauto|]. intros (d & Hd & E). split; [exact (elem_lt _ _ _ Hd)|eauto].
Qed.

Lemma whole_index_of n : 0 <= n -> index_of_slice whole n (arange 0 n 1).
Proof.
  intros Hn. cbn. split; [discriminate|]. intros k x. exact (elem_arange 0 n 1 k x ltac:(discriminate)).
Qed.
Lemma list_index_of n l : in_range n l -> index_of_slice (SList l) n l.
Proof. intros H. cbn. induction H as [|i l Hi _ IH]; constructor; [|exact IH]. split; [lia|]. destruct (Z.ltb_spec i 0); lia. Qed.
Lemma slices_for axes : forall ti a l, nth_error axes ti = Some a -> in_range (axis_len a) l ->
  Forall2 (fun '(n, s) l => index_of_slice s n l) (combine (map axis_len axes) (set_at (map (fun _ => whole) axes) ti (SList l)))
    (set_at (map (fun a => arange 0 (axis_len a) 1) axes) ti l).
Proof.
  assert (forall axes, Forall2 (fun '(n, s) l => index_of_slice s n l) (combine (map axis_len axes) (map (fun _ => whole) axes)) (map (fun a => arange 0 (axis_len a) 1) axes)) as H0.
  { induction axes0 as [|b axes0 IH]; [constructor|]. cbn [map combine]. constructor; [apply whole_index_of, axis_len_nonneg|exact IH]. }
  induction axes as [|b axes IH]; intros ti a l E Hl; [now destruct ti|]. destruct ti as [|ti]; cbn in E; cbn [map set_at combine].
  - injection E as ->. constructor; [now apply list_index_of|apply H0].
  - constructor; [apply whole_index_of, axis_len_nonneg|]. now apply (IH ti a).
Qed.
Lemma sliced_axes env (Henv : env_ok env) {V} (junk : list Z -> V) (x y : var axis V) ti a l : Forall good_axis (var_axes x) -> nth_error (var_axes x) ti = Some a -> in_range (axis_len a) l ->
  slice_var env junk x (map Sl (set_at (map (fun _ => whole) (var_axes x)) ti (SList l))) = Some y -> exists b, var_axes y = set_at (var_axes x) ti b.
Proof.
  intros Hg Ha Hl E. unfold slice_var in E.
  assert (fill_ellipsis (map Sl (set_at (map (fun _ => whole) (var_axes x)) ti (SList l))) (length (var_axes x)) = Some (set_at (map (fun _ => whole) (var_axes x)) ti (SList l))) as Ef.
  { apply fill_ellipsis_spec. exists (set_at (map (fun _ => whole) (var_axes x)) ti (SList l)), [], 0%nat. split; [right; auto|]. cbn [repeat app]. rewrite app_nil_r. split; [reflexivity|]. now rewrite length_set_at, map_length. }
  rewrite Ef in E. pose proof (slices_for (var_axes x) ti a l Ha Hl) as Hi. apply (Forall2_combine_map axis_len (fun n s l => index_of_slice s n l)) in Hi.
  rewrite (proj2 (sequence_Forall2 _ _ (set_at (map (fun a => arange 0 (axis_len a) 1) (var_axes x)) ti l))) in E.
  2: { eapply Forall2_impl; [|exact Hi]. intros [b s] k. apply (slice_index_complete junk). }
  destruct (forallb _ _); injection E as <-; [exists a; symmetry; now apply StencilProofs.set_at_nth|]. cbn [wrapped var_axes].
  exists (axis_take env a l). clear - Henv Hg Ha. revert ti Ha. induction (var_axes x) as [|b axes IH]; intros [|ti] Ha; try discriminate; inversion Hg as [|? ? Hb Hg']; subst; cbn [nth_error] in Ha; cbn [map set_at combine].
  - injection Ha as ->. f_equal. clear - Henv Hg'. induction Hg' as [|b axes Hb _ IH]; [reflexivity|]. cbn [map combine]. rewrite (axis_take_all env b Hb). now f_equal.
  - rewrite (axis_take_all env b Hb). f_equal. now apply IH.
Qed.

Lemma project_complete k d d' : complete k d = complete k d' -> project k d = project k d'.
Proof.
  intros E. assert (forall (b : bool) (u v z : Z), (if b then u else z) = (if b then v else z) -> (if b then [u] else []) = (if b then [v] else [])) as H by (intros [] u v z K; congruence).
  unfold project. unfold complete in E. injection E as E1 E2 E3 E4 E5 E6.
  rewrite (H _ _ _ _ E1), (H _ _ _ _ E2), (H _ _ _ _ E3), (H _ _ _ _ E4), (H _ _ _ _ E5), (H _ _ _ _ E6). reflexivity.
Qed.
Lemma becomes_inj t leap noleap c' d d' e : t_cal t <> Yearless -> my (t_mask t) = true ->
  valid_date (t_cal t) (complete (t_mask t) d) -> valid_date (t_cal t) (complete (t_mask t) d') -> NoDup (omitted (t_cal t) leap noleap (year d)) ->
  keepb t leap noleap d = true -> keepb t leap noleap d' = true -> becomes t leap noleap c' d e -> becomes t leap noleap c' d' e -> complete (t_mask t) d = complete (t_mask t) d'.
Proof.
  intros Hc Hk Hv Hv' Hn Hd Hd' (_ & Y & K & T) (_ & Y' & K' & T'). unfold keepb in Hd, Hd'. apply left_in_spec in Hd. apply left_in_spec in Hd'.
  assert (year d' = year d) as Ey by congruence. rewrite Ey in *. rewrite K in K'. apply shift_inj in K'; [|exact Hn|exact Hd|exact Hd'].
  apply (A_inj (t_cal t)); [exact Hv|exact Hv'|]. rewrite (A_doy (t_cal t) (complete (t_mask t) d) Hc), (A_doy (t_cal t) (complete (t_mask t) d') Hc). rewrite !(complete_year _ _ Hk), Ey, K'. congruence.
Qed.
Lemma Forall2_NoDup {A B C} (R : A -> B -> Prop) (f : A -> C) l l' : Forall2 R l l' -> NoDup (map f l) ->
  (forall a a' b, In a l -> In a' l -> R a b -> R a' b -> f a = f a') -> NoDup l'.
Proof.
  induction 1 as [|a b l l' H Hl IH]; intros Hn Hi; [constructor|]. inversion Hn as [|? ? H1 H2]; subst. constructor.
  - intros Hb. destruct (Forall2_In_r _ _ _ b Hl Hb) as (a' & Ha' & R'). apply H1. rewrite (Hi a a' b); [now apply in_map|now left|now right|exact H|exact R'].
  - apply IH; [exact H2|]. intros x x' y Hx Hx'. apply Hi; now right.
Qed.

Lemma new_axis_good t leap noleap cls c' u : t_cal t <> Yearless -> c' <> Yearless -> my (t_mask t) = true -> good_axis (Time t) ->
  (forall d, In d (t_dates t) -> sensible (t_cal t) c' leap noleap (year d)) ->
  joined cls c' (t_dates u) u -> Forall2 (becomes t leap noleap c') (filter (keepb t leap noleap) (t_dates t)) (t_dates u) -> good_axis (Time u).
Proof.
  intros Hc Hc' Hk (_ & Hv & _ & _ & Hnd & Hr) Hs (U1 & U2 & U3 & U4 & _ & U6 & U7) Hd.
  assert (Forall (valid_date c') (t_dates u)) as Hvu by (clear - Hd; induction Hd as [|d e l l' K _ IH]; constructor; [apply K|exact IH]).
  cbn [good_axis]. rewrite U2, U3, U4. repeat (split; [assumption|]). split; [discriminate|]. split; [exact U7|]. unfold records in *. split.
  - assert (NoDup (t_dates u)) as Hnu.
    { apply (Forall2_NoDup _ (project (t_mask t)) _ _ Hd).
      - clear - Hnd. induction (t_dates t) as [|d l IH]; [constructor|]. cbn [map] in Hnd. inversion Hnd as [|? ? H1 H2]; subst. cbn [filter]. destruct (keepb t leap noleap d); [|now apply IH].
        cbn [map]. constructor; [|now apply IH]. intros K. apply H1. apply in_map_iff in K as (e & E & He). apply filter_In in He as [He _]. rewrite <- E. now apply in_map.
      - intros d d' e Hd1 Hd2 B1 B2. apply filter_In in Hd1 as [Hd1 K1]. apply filter_In in Hd2 as [Hd2 K2]. apply project_complete.
        apply (becomes_inj t leap noleap c' d d' e); auto; try (apply full_valid; assumption).
        apply (out_ok t leap noleap c' Hc Hc' Hs). now apply in_map. }
    clear - Hnu. induction Hnu as [|d l H _ IH]; [constructor|]. cbn [map]. constructor; [|exact IH]. intros K. apply H. apply in_map_iff in K as (e & E & He).
    cbn in E. destruct d, e. cbn in E. injection E as -> -> -> -> -> ->. exact He.
  - apply Forall_map. apply Forall_forall. intros e He. pose proof (proj1 (Forall_forall _ _) Hvu e He) as Hve. destruct (Forall2_In_r _ _ _ e Hd He) as (d & Hdin & B). apply filter_In in Hdin as [Hdin _].
    assert (-99998 <= year d <= 99998) as Hyr.
    { pose proof (proj1 (Forall_forall _ _) Hr (project (t_mask t) d) (in_map _ _ _ Hdin)) as K. cbv beta in K. rewrite Forall_forall in K. apply K. unfold project. rewrite Hk. now left. }
    destruct B as (_ & Y & _ & _). pose proof (valid_month c' e Hc' Hve) as Hm. destruct Hve as [(T1 & T2 & T3) Hve].
    assert (1 <= day e <= 31) as Hday by (destruct c'; try congruence; destruct Hve as (n & Hn & Hdy); apply month_length_bounds in Hn; lia).
    cbn. repeat constructor; rewrite ?Y; lia.
Qed.

Theorem days_statement {V} env (junk : list Z -> V) (x : var axis V) D ti t leap noleap cls c' :
  env_ok env -> holds env x D -> one_time_axis x ti t -> my (t_mask t) = true -> t_cal t <> Yearless -> c' <> Yearless ->
  in_year_order (t_dates t) -> room_for x ti cls ->
  (forall d, In d (t_dates t) -> sensible (t_cal t) c' leap noleap (year d)) ->
  (exists d, In d (t_dates t) /\ ~ left_out (t_cal t) leap noleap (complete (t_mask t) d)) ->
  exists y D' u l, removeleapyears env junk x leap noleap cls c' = Some y /\ var_axes y = set_at (var_axes x) ti (Time u) /\ holds env y D' /\
    t_class u = cls /\ t_cal u = c' /\ t_mask u = mkmask true true true true true true /\
    increasing l /\ (forall i, In i l <-> exists d, elem (t_dates t) i d /\ ~ left_out (t_cal t) leap noleap (complete (t_mask t) d)) /\
    Forall2 (fun i e => exists d, elem (t_dates t) i d /\ relabelled (t_cal t) c' leap noleap (complete (t_mask t) d) e) l (t_dates u) /\
    forall p, position (var_shape y) p -> D' p = D (moved p ti (znth l (nth ti p 0))).
Proof.
  intros Henv Hx [Ht Honly] Hk Hc Hc' Ho Hroom Hs Hkept. pose proof Hx as [[Hrep Hsep] Hgood].
  assert (good_axis (Time t)) as Hg by (rewrite Forall_forall in Hgood; apply Hgood; eapply nth_error_In; exact Ht).
  pose proof Hg as (_ & Hv & _).
  assert (forall d, In d (t_dates t) -> valid_date (t_cal t) (complete (t_mask t) d)) as Hfv by (intros d Hd; now apply full_valid).
  assert (filter (keepb t leap noleap) (t_dates t) <> []) as Hne.
  { destruct Hkept as (d & Hd & K). intros E. assert (In d (filter (keepb t leap noleap) (t_dates t))) as H; [|rewrite E in H; destruct H].
    apply filter_In. split; [exact Hd|]. now apply keepb_spec; [| |apply Hfv|]. }
  destruct (doy_list t Hc Hk Hv Ho) as (doy & Ed & Hd).
  pose proof (omit_list t leap noleap doy Hd) as Eo.
  destruct (all_years env t leap noleap cls c' Hc Hc' Hk Hv Ho Hs Hne) as (pieces & u & Ep & Ec & Hj & Hb).
  set (l := flatnonzero (map (keepb t leap noleap) (t_dates t))).
  destruct (nonzero_facts (keepb t leap noleap) (t_dates t)) as (Hl1 & Hl2 & Hl3). fold l in Hl1, Hl2, Hl3.
  pose proof (nonzero_elems (keepb t leap noleap) (t_dates t)) as Hl4. fold l in Hl4.
  set (sls := set_at (map (fun _ => whole) (var_axes x)) ti (SList l)).
  set (inds := set_at (map (fun a => arange 0 (axis_len a) 1) (var_axes x)) ti l).
  assert (in_range (axis_len (Time t)) l) as Hlr by exact Hl2.
  destruct (slice_total env Henv junk x D (map Sl sls) sls inds Hx) as (y0 & Ey0 & Hy1 & Hy2 & Hy3 & _).
  { exists sls, [], 0%nat. split; [right; auto|]. cbn [repeat app]. rewrite app_nil_r. split; [reflexivity|]. unfold sls. now rewrite length_set_at, map_length. }
  { exact (slices_for (var_axes x) ti (Time t) l Ht Hlr). }
  destruct (sliced_axes env Henv junk x y0 ti (Time t) l Hgood Ht Hlr Ey0) as (b & Eb).
  assert (set_at (var_axes y0) ti (Time u) = set_at (var_axes x) ti (Time u)) as Eset by (rewrite Eb; apply StencilProofs.set_at_set).
  assert (ti < length (var_axes x))%nat as Hti by (apply nth_error_Some; congruence).
  assert (zlen (t_dates u) = zlen l) as Hlen.
  { apply Forall2_len in Hb. apply Forall2_len in Hl4. unfold zlen. lia. }
  assert (good_axis (Time u)) as Hgu by (apply (new_axis_good t leap noleap cls c'); assumption).
  destruct Hj as (U1 & U2 & U3 & U4 & U5 & U6 & U7).
  assert (separate (set_at (var_axes x) ti (Time u))) as Hsep'.
  { intros i j a a' Ha Ha' Hij. rewrite nth_error_set_at in Ha, Ha' by exact Hti. destruct (Nat.eqb_spec ti i) as [Hi|Hi], (Nat.eqb_spec ti j) as [Hj|Hj]; try congruence.
    - injection Ha as <-. apply (Hroom j a' u); congruence.
    - injection Ha' as <-. apply (Hroom i a u); congruence.
    - exact (Hsep i j a a' Ha Ha' Hij). }
  destruct (replace_statement env junk y0 _ (set_at (var_axes x) ti (Time u)) Hy3 Hsep') as [Hrs _].
  destruct Hrs as (y & Ey & Hya & Hyg).
  { rewrite Hy2. unfold inds. rewrite !StencilProofs.map_set_at. cbn [axis_len]. rewrite Hlen. f_equal. rewrite map_map. apply map_ext. intros a. symmetry. apply zlen_arange, axis_len_nonneg. }
  exists y, (fun p => D (gather inds p)), u, l. split.
  { unfold removeleapyears. rewrite (time_index_at _ _ _ Ht Honly). cbn [bind]. rewrite Hk. cbn [negb]. rewrite Ed. cbn [bind]. rewrite Eo, map_map.
    rewrite (map_ext (fun d => negb (negb (keepb t leap noleap d))) (keepb t leap noleap)) by (intros; apply negb_involutive).
    fold l. fold sls. rewrite Ey0. cbn [bind]. rewrite Ep. cbn [bind]. rewrite Ec. cbn [bind]. rewrite Eset. exact Ey. }
  split; [exact Hya|]. split.
  { split; [exact Hyg|]. rewrite Hya. apply Forall_forall. intros a Ha. apply In_nth_error in Ha as [i Hi]. rewrite nth_error_set_at in Hi by exact Hti.
    destruct (Nat.eqb ti i); [injection Hi as <-; exact Hgu|]. rewrite Forall_forall in Hgood. apply Hgood. eapply nth_error_In; exact Hi. }
  split; [exact U1|]. split; [exact U2|]. split; [exact U4|]. split; [exact Hl1|]. split.
  { intros i. rewrite Hl3. split; intros (d & H1 & H2); exists d; (split; [exact H1|]); apply (keepb_spec t leap noleap d Hc Hk (Hfv d (elem_In _ _ _ H1))); exact H2. }
  split.
  { clear - Hl4 Hb Hfv Hc Hc' Hk. assert (Forall (fun d => In d (t_dates t)) (filter (keepb t leap noleap) (t_dates t))) as Hin by (apply Forall_forall; intros d Hd; apply filter_In in Hd; tauto).
    revert Hl4 Hb Hin. generalize l as l0. generalize (t_dates u) as es. generalize (filter (keepb t leap noleap) (t_dates t)) as ds.
    intros ds es l0 H1. revert es. induction H1 as [|i d l0 ds Hi _ IH]; intros es H2 Hin; inversion H2 as [|? e ? es' He H2']; subst; [constructor|]. inversion Hin as [|? ? Hdi Hin']; subst. constructor; [|now apply IH].
    exists d. split; [exact Hi|]. apply becomes_relabelled; auto. }
  intros p Hp. unfold moved. f_equal. unfold inds. rewrite gather_set.
  assert (var_shape y = set_at (map axis_len (var_axes x)) ti (zlen l)) as Esh by (unfold var_shape; rewrite Hya, StencilProofs.map_set_at; cbn [axis_len]; now rewrite Hlen).
  rewrite Esh in Hp.
  assert (nth_error (map axis_len (var_axes x)) ti = Some (axis_len (Time t))) as En by (rewrite nth_error_map, Ht; reflexivity).
  assert (0 < axis_len (Time t)) as Hpos.
  { cbn [axis_len]. destruct Hkept as (d & Hd' & _). destruct (t_dates t); [destruct Hd'|]. rewrite zlen_cons. pose proof (zlen_nonneg l0). lia. }
  pose proof (position_set_shape _ _ _ _ _ Hp En 0 ltac:(lia)) as Hp0.
  pose proof (gather_axis_aranges (V:=V) junk (var_axes x) _ Hp0) as Hga. rewrite gather_set_p in Hga.
  assert (forall v, set_at (gather (map (fun a => arange 0 (axis_len a) 1) (var_axes x)) p) ti v = set_at (set_at p ti 0) ti v) as Hall by (intros v; rewrite <- Hga; now rewrite StencilProofs.set_at_set).
  rewrite Hall, StencilProofs.set_at_set. reflexivity.
Qed.
