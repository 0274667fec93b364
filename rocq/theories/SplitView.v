(** Reading a variable whose time axis has been split. *)
From Coq Require Import ZArith List Bool Lia ZifyBool QArith_base Qround.
From Verif Require Import CalModel CalSpec CalProofs TimeSearchModel TimeSearchSpec SortSpec IndexModel IndexSpec IndexProofs ArrModel ArrProofs
  ViewModel ViewSpec ViewProofs AxisModel AxisSpec AxisProofs VarOpsModel VarOpsSpec VarOpsProofs NumModel NumProofs ReduceModel ReduceSpec ArgProofs StencilModel StencilSpec StencilProofs IntgrProofs
  RespondProofs ChunkProofs LoopProofs FlattenProofs LagProofs InterpView SmoothModel SmoothView WindowModel WindowProofs CompositeProofs ConcatModel ConcatProofs ConcatVar ClimModel ClimSpec ClimAxis ClimChunk ClimView
  MultiFileRead TickMonth SplitModel SplitSpec SplitProofs.
Import ListNotations.
Open Scope Z_scope.
Notation zlen := IndexSpec.zlen.
Notation znth := ArrModel.znth.

Section SplitView.
Context (env : axenv) (Henv : env_ok env) (lexsort : list (list Z) -> list Z) (Hlex : lexsort_ok lexsort) (junk : list Z -> num) (named : list Z) (year_name : Z).
Notation var := (ViewModel.var axis num).
Context (x : var) (D : list Z -> num) (Hx : responds env x D) (ti : nat) (t : taxis) (Ht : nth_error (var_axes x) ti = Some (Time t))
        (Hgood : good_axis (Time t)) (Hyear : my (t_mask t) = true) (Hcal : t_cal t <> Yearless) (ys : list Z) (Hys : NoDup ys) (Hyb : Forall (fun y => -99998 <= y <= 99998) ys)
        (days : taxis) (Gd : good_axis (Time days)) (Hdays : groups (without_year (t_mask t)) t days).
Notation A := (var_axes x).
Notation ya := (year_axis env named year_name ys).
Definition axes : list axis := insert_at (set_at A ti ya) (S ti) (Time days).

Lemma good_years : good_axis ya.
Proof. cbn. split; [now apply years_separated|]. split; [constructor|]. apply (proj2 Henv). Qed.
Lemma ya_len : axis_len ya = zlen ys.
Proof. cbn [axis_len year_axis c_vals axis_vals]. unfold IndexSpec.zlen. now rewrite map_length. Qed.
Lemma tiA : (ti < length A)%nat.
Proof. apply nth_error_Some. congruence. Qed.
Lemma axes_y : nth_error axes ti = Some ya.
Proof. unfold axes. rewrite nth_error_insert_at by (rewrite length_set_at; apply tiA). destruct (Nat.ltb_spec ti (S ti)); [|lia]. rewrite nth_error_set_at, Nat.eqb_refl by apply tiA. reflexivity. Qed.
Lemma axes_d : nth_error axes (S ti) = Some (Time days).
Proof. unfold axes. rewrite nth_error_insert_at by (rewrite length_set_at; apply tiA). destruct (Nat.ltb_spec (S ti) (S ti)); [lia|]. rewrite Nat.eqb_refl. reflexivity. Qed.
Lemma axes_back : set_at (remove_at axes (S ti)) ti (Time t) = A.
Proof. unfold axes. rewrite remove_insert by (rewrite length_set_at; apply tiA). rewrite set_at_set. now apply set_at_nth. Qed.

Context (L : list (list Z)) (HL : Forall2 selection axes L).
Notation ly := (nth ti L []).
Notation ld := (nth (S ti) L []).
Notation Lx := (remove_at L (S ti)).
Notation s := (map zlen L).
Lemma lenL : length L = S (length A).
Proof. rewrite <- (Forall2_len _ _ _ HL). unfold axes. rewrite length_insert, length_set_at. reflexivity. Qed.
Lemma L_y : nth_error L ti = Some ly.
Proof. apply nth_error_nth'. rewrite lenL. pose proof tiA. lia. Qed.
Lemma L_d : nth_error L (S ti) = Some ld.
Proof. apply nth_error_nth'. rewrite lenL. pose proof tiA. lia. Qed.
Lemma ly_sel : ly <> [] /\ in_range (zlen ys) ly /\ increasing ly.
Proof. pose proof (Forall2_nth_error _ _ _ _ _ _ HL axes_y L_y) as H. unfold selection in H. rewrite ya_len in H. exact H. Qed.
Lemma ld_sel : ld <> [] /\ in_range (zlen (t_dates days)) ld /\ increasing ld.
Proof. exact (Forall2_nth_error _ _ _ _ _ _ HL axes_d L_d). Qed.

Lemma subaxis_self a d l : nth_error axes d = Some a -> nth_error L d = Some l -> subaxis env (view_of_inds axes L) d = Some (axis_take env a l).
Proof.
  intros Ha Hl. unfold subaxis. cbn [vaxes vslices view_of_inds]. rewrite Ha. cbn [bind]. rewrite nth_error_map, Hl. cbn [option_map bind].
  rewrite np_index_simplify; [reflexivity|]. apply (Forall2_nth_error _ _ _ _ _ _ HL Ha Hl).
Qed.

Lemma years_taken : map Qfloor (axis_vals (axis_take env ya ly)) = map (znth ys) ly.
Proof.
  pose proof ly_sel as (_ & Hr & _). rewrite <- ya_len in Hr. pose proof (sliced_self env Henv ya ly good_years Hr) as Hs. rewrite ya_len in Hr.
  destruct (axis_take env ya ly) as [c| |]; cbn [sliced year_axis] in Hs; try tauto. destruct Hs as (_ & _ & _ & _ & E & _). cbn [axis_vals c_vals] in *. rewrite E. unfold pick. rewrite map_map.
  apply map_ext_in. intros i Hi. pose proof (proj1 (Forall_forall _ _) Hr i Hi) as B. cbv beta in B.
  rewrite (nth_indep _ 0%Q (inject_Z 0)) by (rewrite map_length; unfold IndexSpec.zlen in B; lia). rewrite map_nth, Qfloor_Z. unfold ArrModel.znth. reflexivity.
Qed.

(** the combinations of the chosen years and days *)
Lemma the_times : exists ds u, axis_take env (Time days) ld = Time ds /\ jointime (axis_vals (axis_take env ya ly)) ds = Some u /\
  t_class u = t_class t /\ t_mask u = t_mask t /\ t_dates u = grid (map (znth ys) ly) (pick date0 (t_dates days) ld) in_year.
Proof.
  pose proof ld_sel as (Hne & Hr & Hi). pose proof (sliced_self env Henv (Time days) ld Gd Hr) as Hs.
  destruct (axis_take env (Time days) ld) as [| |ds] eqn:E; cbn [sliced] in Hs; try tauto. destruct Hs as (S1 & S2 & S3 & S4 & S5 & S6 & S7).
  destruct Hdays as (G1 & G2 & G3 & G4 & G5). destruct Gd as (D1 & D2 & D3 & D4 & D5 & D6).
  destruct (jointime_spec (axis_vals (axis_take env ya ly)) ds) as (u & Eu & U1 & U2 & U3 & U4 & U5 & U6 & U7).
  - intros E0. apply (f_equal (map Qfloor)) in E0. rewrite years_taken in E0. apply map_eq_nil in E0. apply ly_sel. exact E0.
  - rewrite S6. unfold pick. intros E0. apply map_eq_nil in E0. contradiction.
  - rewrite S2, G2. exact Hcal.
  - rewrite S6. unfold pick. apply Forall_forall. intros d Hd. apply in_map_iff in Hd as (i & <- & Hi'). pose proof (proj1 (Forall_forall _ _) Hr i Hi') as B. cbv beta in B.
    apply (valid_months (t_cal days)); [rewrite G2; exact Hcal|]. apply (proj1 (Forall_forall _ _) D2). apply nth_In. unfold IndexSpec.zlen in B. lia.
  - exists ds, u. split; [reflexivity|]. split; [exact Eu|]. split; [congruence|]. split; [|rewrite U5, years_taken, S6; reflexivity].
    rewrite U4, S5, G3. now apply with_without.
Qed.

Lemma record_at_date k a i : 0 <= i < zlen (t_dates a) -> record_of k a i = project k (date_at a i).
Proof. intros Hi. unfold record_of, records, date_at. rewrite (nth_indep _ [] (project k date0)) by (rewrite map_length; unfold IndexSpec.zlen in Hi; lia). apply map_nth. Qed.
Lemma combination_day u a b : t_mask u = t_mask t -> t_dates u = grid (map (znth ys) ly) (pick date0 (t_dates days) ld) in_year -> 0 <= a < zlen ly -> 0 <= b < zlen ld ->
  0 <= a * zlen ld + b < zlen (t_dates u) /\
  forall i, 0 <= i < zlen (t_dates t) -> record_of (t_mask u) t i = record_of (t_mask u) u (a * zlen ld + b) <-> on_day t (znth ys (znth ly a)) days (znth ld b) i.
Proof.
  intros Em Ed Ha Hb. pose proof ld_sel as (_ & Hr & _). destruct Hdays as (G1 & G2 & G3 & G4 & G5).
  assert (elem (t_dates u) (a * zlen ld + b) (in_year (znth ys (znth ly a)) (date_at days (znth ld b)))) as He.
  { rewrite Ed. assert (zlen ld = zlen (pick date0 (t_dates days) ld)) as -> by (unfold pick, IndexSpec.zlen; now rewrite map_length). apply grid_elem.
    - apply elem_map. exists (znth ly a). split; [apply elem_znth; exact Ha|reflexivity].
    - unfold pick. apply elem_map. exists (znth ld b). split; [apply elem_znth; exact Hb|reflexivity]. }
  assert (0 <= a * zlen ld + b < zlen (t_dates u)) as HB by (eapply elem_range, He). split; [exact HB|]. intros i Hi.
  rewrite !record_at_date by assumption. assert (date_at u (a * zlen ld + b) = in_year (znth ys (znth ly a)) (date_at days (znth ld b))) as -> by (unfold date_at; apply (nth_error_nth _ _ date0), He).
  rewrite Em. rewrite (project_year _ (date_at t i) Hyear). rewrite <- (with_without (t_mask t) Hyear) at 2. rewrite project_in_year. unfold on_day. rewrite G3.
  assert (In (znth ld b) ld) as HIn by (eapply elem_In, elem_znth, Hb). pose proof (proj1 (Forall_forall _ _) Hr _ HIn) as Bd. cbv beta in Bd.
  rewrite !record_at_date by assumption. change (without_year (without_year (t_mask t))) with (without_year (t_mask t)). split.
  - intros E. split; [exact Hi|]. split; congruence.
  - intros (_ & E1 & E2). congruence.
Qed.
Lemma combinations_differ u : t_mask u = t_mask t -> t_dates u = grid (map (znth ys) ly) (pick date0 (t_dates days) ld) in_year -> NoDup (records (t_mask u) u).
Proof.
  intros Em Ed. unfold records. rewrite Ed, Em. rewrite <- (with_without (t_mask t) Hyear). pose proof ly_sel as (_ & Hr & Hi). pose proof ld_sel as (_ & Hrd & Hid). destruct Hdays as (G1 & G2 & G3 & G4 & G5). destruct Gd as (_ & _ & _ & _ & D5 & _). rewrite G3 in D5.
  assert (forall (k : mask) ys ds, NoDup ys -> NoDup (map (project (without_year k)) ds) -> NoDup (map (project (with_years k)) (grid ys ds in_year))) as K.
  { intros k zs ds. revert zs. clear. induction zs as [|y zs IH]; intros Hy Hd; [constructor|]. inversion Hy as [|? ? Hn Hy']. unfold grid. cbn [map List.concat]. rewrite map_app, map_map. apply NoDup_app2; [|apply (IH Hy' Hd)|].
    - rewrite (map_ext (fun d => project (with_years k) (in_year y d)) (fun d => y :: project (without_year k) d)) by (intros; reflexivity). rewrite <- (map_map (project (without_year k)) (cons y)). apply FinFun.Injective_map_NoDup; [|exact Hd]. intros a b E. congruence.
    - intros z Hz Hz'. apply in_map_iff in Hz as (w & <- & Hw). apply in_map_iff in Hz' as (d' & Ex & Hd'). apply in_concat in Hd' as (ll & Hl & Hd'). apply in_map_iff in Hl as (y' & <- & Hy''). apply in_map_iff in Hd' as (d & <- & Hd').
      rewrite !project_in_year in Ex. congruence. }
  apply K.
  - apply NoDup_map_in; [|now apply increasing_NoDup]. intros a b Ha Hb E. pose proof (proj1 (Forall_forall _ _) Hr a Ha) as Ba. pose proof (proj1 (Forall_forall _ _) Hr b Hb) as Bb. cbv beta in Ba, Bb.
    apply (NoDup_nth_Z ys a b Hys Ba Bb). exact E.
  - change (without_year (without_year (t_mask t))) with (without_year (t_mask t)). unfold pick. rewrite map_map. apply NoDup_map_in; [|now apply increasing_NoDup].
    intros a b Ha Hb E. pose proof (proj1 (Forall_forall _ _) Hrd a Ha) as Ba. pose proof (proj1 (Forall_forall _ _) Hrd b Hb) as Bb. cbv beta in Ba, Bb.
    assert (Z.to_nat a = Z.to_nat b) as EE; [|lia]. apply (proj1 (NoDup_nth _ []) D5).
    + unfold records. rewrite map_length. unfold IndexSpec.zlen in Ba. lia.
    + unfold records. rewrite map_length. unfold IndexSpec.zlen in Bb. lia.
    + pose proof (record_at_date (without_year (t_mask t)) days a Ba) as E1. pose proof (record_at_date (without_year (t_mask t)) days b Bb) as E2. unfold record_of, date_at in E1, E2. congruence.
Qed.

(** the date found for a year and a day *)
Definition time_on (y j : Z) : option Z :=
  find (fun i => (year (date_at t i) =? y) && if list_eq_dec Z.eq_dec (record_of (t_mask days) t i) (record_of (t_mask days) days j) then true else false) (arange 0 (zlen (t_dates t)) 1).
Definition split_data (q : list Z) : num :=
  match time_on (znth ys (nth ti q 0)) (nth (S ti) q 0) with Some i => D (set_at (remove_at q (S ti)) ti i) | None => NaN end.
Lemma time_on_spec y j : match time_on y j with Some i => on_day t y days j i | None => forall i, ~ on_day t y days j i end.
Proof.
  unfold time_on. match goal with |- context [find ?f ?l] => destruct (find f l) as [i|] eqn:E end.
  - apply find_some in E as [E1 E2]. apply In_arange1 in E1. apply andb_prop in E2 as [E2 E3]. destruct (list_eq_dec _ _ _) as [E4|]; [|discriminate]. split; [lia|]. split; [lia|exact E4].
  - intros i (H1 & H2 & H3). pose proof (find_none _ _ E i (proj2 (In_arange1 _ _ _) H1)) as H. cbv beta in H. destruct (list_eq_dec _ _ _); [|contradiction]. lia.
Qed.
Lemma on_day_one y j i i' : on_day t y days j i -> on_day t y days j i' -> i = i'.
Proof.
  intros (H1 & H2 & H3) (K1 & K2 & K3). destruct Hdays as (G1 & G2 & G3 & G4 & G5). rewrite G3 in H3, K3. destruct Hgood as (_ & _ & _ & _ & Hn & _).
  assert (project (t_mask t) (date_at t i) = project (t_mask t) (date_at t i')) as E.
  { rewrite !(project_year _ _ Hyear), H2, K2. f_equal. rewrite <- !record_at_date by assumption. congruence. }
  assert (Z.to_nat i = Z.to_nat i') as EE; [|lia]. apply (proj1 (NoDup_nth _ []) Hn).
  - unfold records. rewrite map_length. unfold IndexSpec.zlen in H1. lia.
  - unfold records. rewrite map_length. unfold IndexSpec.zlen in K1. lia.
  - pose proof (record_at_date (t_mask t) t i H1) as E1. pose proof (record_at_date (t_mask t) t i' K1) as E2. unfold record_of in E1, E2. congruence.
Qed.

Lemma s_split : s = insert_at (set_at (map zlen Lx) ti (zlen ly)) (S ti) (zlen ld).
Proof.
  assert (nth_error (map zlen Lx) ti = Some (zlen ly)) as E.
  { rewrite nth_error_map, nth_error_remove. destruct (Nat.ltb_spec ti (S ti)); [|lia]. rewrite L_y. reflexivity. }
  rewrite (set_at_nth _ _ _ E). rewrite <- map_insert. rewrite insert_remove by apply L_d. reflexivity.
Qed.
Lemma s_squished : firstn ti s ++ (nth ti s 0 * nth (S ti) s 0) :: skipn (S (S ti)) s = set_at (map zlen Lx) ti (zlen ly * zlen ld).
Proof.
  assert (nth_error s ti = Some (zlen ly)) as E1 by (rewrite nth_error_map, L_y; reflexivity). assert (nth_error s (S ti) = Some (zlen ld)) as E2 by (rewrite nth_error_map, L_d; reflexivity).
  rewrite (nth_error_nth _ _ 0 E1), (nth_error_nth _ _ 0 E2). rewrite <- remove_at_map. revert E1 E2. generalize (zlen ly) (zlen ld). generalize s. clear. intros l a b. revert l. induction ti as [|n IH]; intros [|h l] E1 E2; try discriminate.
  - destruct l as [|h' l]; [discriminate|]. reflexivity.
  - cbn [nth_error] in E1. change (remove_at (h :: l) (S (S n))) with (h :: remove_at l (S n)). cbn [set_at firstn app]. f_equal. apply (IH l E1 E2).
Qed.

Lemma split_view_spec : exists r, split_view env lexsort junk x ti (view_of_inds axes L) = Some r /\ array_is r s (fun p => split_data (gather L p)).
Proof.
  destruct the_times as (ds & u & E1 & E2 & U1 & U2 & U3). pose proof ly_sel as (Nly & Rly & Ily). pose proof ld_sel as (Nld & Rld & Ild).
  unfold split_view. rewrite (subaxis_self _ _ _ axes_y L_y). cbn [bind]. rewrite (subaxis_self _ _ _ axes_d L_d). cbn [bind]. rewrite Ht. cbn [bind]. rewrite E1, E2. cbn [bind].
  pose proof (combinations_differ u U2 U3) as Hn.
  assert (some_field (t_mask u)) as Hf by (rewrite U2; intros E; rewrite E in Hyear; discriminate).
  destruct (common_map_axes lexsort Hlex t u U1 Hf) as (m & Em & Nm & Hm); [rewrite U2; apply mask_sub_refl|exact Hn|]. rewrite Em. cbn [bind].
  set (l1 := map fst m). set (l2 := map snd m).
  assert (forall i j j', In (i, j) m -> In (i, j') m -> j = j') as F1.
  { intros i j j' H1 H2. apply Hm in H1 as (_ & B1 & R1). apply Hm in H2 as (_ & B2 & R2). assert (Z.to_nat j = Z.to_nat j') as EE; [|lia]. apply (proj1 (NoDup_nth _ []) Hn).
    - unfold records. rewrite map_length. unfold IndexSpec.zlen in B1. lia.
    - unfold records. rewrite map_length. unfold IndexSpec.zlen in B2. lia.
    - unfold record_of in R1, R2. congruence. }
  assert (forall i i' j, In (i, j) m -> In (i', j) m -> i = i') as F2.
  { intros i i' j H1 H2. apply Hm in H1 as (B1 & _ & R1). apply Hm in H2 as (B2 & _ & R2). destruct Hgood as (_ & _ & _ & _ & Hnt & _). assert (Z.to_nat i = Z.to_nat i') as EE; [|lia]. apply (proj1 (NoDup_nth _ []) Hnt).
    - unfold records. rewrite map_length. unfold IndexSpec.zlen in B1. lia.
    - unfold records. rewrite map_length. unfold IndexSpec.zlen in B2. lia.
    - rewrite U2 in R1, R2. unfold record_of in R1, R2. congruence. }
  assert (NoDup l1) as N1. { apply NoDup_map_in; [|exact Nm]. intros [i j] [i' j'] H1 H2 E. cbn in E. subst i'. f_equal. exact (F1 i j j' H1 H2). }
  assert (NoDup l2) as N2. { apply NoDup_map_in; [|exact Nm]. intros [i j] [i' j'] H1 H2 E. cbn in E. subst j'. f_equal. exact (F2 i i' j H1 H2). }
  assert (in_range (zlen (t_dates t)) l1) as R1. { apply Forall_forall. intros i Hi. apply in_map_iff in Hi as ([i' j] & <- & Hi). apply Hm in Hi. cbn. tauto. }
  assert (zlen (t_dates u) = zlen ly * zlen ld) as Lu. { rewrite U3, grid_len. unfold pick, IndexSpec.zlen. rewrite !map_length. reflexivity. }
  assert (in_range (zlen ly * zlen ld) l2) as R2. { apply Forall_forall. intros j Hj. apply in_map_iff in Hj as ([i j'] & <- & Hj). apply Hm in Hj. cbn. rewrite <- Lu. tauto. }
  assert (zlen l1 = zlen l2) as E12 by (unfold l1, l2, IndexSpec.zlen; now rewrite !map_length).
  rewrite remove_axis_inds. pose proof tiA as HtiA. pose proof lenL as HlL.
  assert (Forall2 selection (remove_at axes (S ti)) Lx) as HLx by (apply Forall2_remove, HL).
  rewrite replace_inds; [|eapply Forall2_impl; [|exact HLx]; intros a l (_ & H & _); exact H|exact R1|].
  2:{ rewrite length_remove_at; unfold axes; rewrite length_insert, length_set_at; lia. }
  rewrite axes_back. cbn [bind].
  destruct (own_get_any env Henv junk x D (set_at Lx ti l1) Hx) as (indata & Ei & Hi).
  { rewrite <- axes_back at 1. apply Forall2_set_both; [|split; [exact R1|exact N1]]. eapply Forall2_impl; [|exact HLx]. intros a l (_ & H & Hinc). split; [exact H|]. now apply increasing_NoDup. }
  rewrite Ei. cbn [bind]. change (vshape (view_of_inds axes L)) with s. cbv zeta. rewrite s_squished.
  assert (length Lx = length A) as HlLx by (rewrite length_remove_at; lia). assert (ti < length (map zlen Lx))%nat as Hti by (rewrite map_length; lia).
  destruct (reshape_merge (Arr s (fun _ => NaN)) (map zlen Lx) ti (zlen ly) (zlen ld) (fun _ => NaN)) as (o0 & Eo & So & Vo); [exact Hti| |apply zlen_nonneg|apply zlen_nonneg|].
  { rewrite <- s_split. split; [reflexivity|]. reflexivity. }
  rewrite Eo. cbn [bind].
  destruct (set_along_list o0 indata (set_at (map zlen Lx) ti (zlen ly * zlen ld)) ti (zlen ly * zlen ld) l2 (fun p => D (gather (set_at Lx ti l1) p))) as (o1 & E1' & S1 & V1); [exact So| |exact N2|exact R2| |].
  { rewrite nth_error_set_at, Nat.eqb_refl by exact Hti. reflexivity. }
  { rewrite set_at_set. rewrite <- E12, <- map_set_at. exact Hi. }
  rewrite E1'. cbn [bind].
  destruct (reshape_split o1 (map zlen Lx) ti (zlen ly) (zlen ld) (val o1) Hti) as (c & Ec & Hc); [split; [exact S1|reflexivity]|].
  rewrite <- s_split in Ec, Hc. exists c. split; [exact Ec|]. eapply array_is_ext; [exact Hc|]. intros p Hp. cbv beta.
  assert (length p = length L) as Hlp by (apply Forall2_len in Hp; rewrite map_length in Hp; lia).
  assert (0 <= nth ti p 0 < zlen ly) as Ba by (eapply position_at; [exact Hp|]; rewrite nth_error_map, L_y; reflexivity).
  assert (0 <= nth (S ti) p 0 < zlen ld) as Bb by (eapply position_at; [exact Hp|]; rewrite nth_error_map, L_d; reflexivity).
  set (k := nth ti p 0 * zlen ld + nth (S ti) p 0). set (q := set_at (remove_at p (S ti)) ti k).
  destruct (combination_day u _ _ U2 U3 Ba Bb) as [Bk Hk]. fold k in Bk, Hk.
  assert (nth ti q 0 = k) as Eqk by (unfold q; apply nth_set_same; rewrite length_remove_at; lia).
  assert (position (set_at (map zlen Lx) ti (zlen ly * zlen ld)) q) as Hq.
  { unfold q. apply (position_remove _ _ (S ti)) in Hp. rewrite remove_at_map in Hp. apply Forall2_set_both; [exact Hp|]. rewrite <- Lu. exact Bk. }
  destruct (V1 q Hq) as [Va Vb]. rewrite Eqk in Va, Vb. unfold split_data.
  rewrite (nth_gather' L p ti ly Hlp L_y), (nth_gather' L p (S ti) ld Hlp L_d).
  pose proof (time_on_spec (znth ys (znth ly (nth ti p 0))) (znth ld (nth (S ti) p 0))) as HT. destruct (time_on _ _) as [i|].
  - assert (In (i, k) m) as Him. { apply Hm. split; [apply HT|]. split; [exact Bk|]. apply Hk; [apply HT|exact HT]. }
    apply In_elem in Him as (n & Hnm). assert (elem l2 n k) as H2 by (apply elem_map; exists (i, k); split; [exact Hnm|reflexivity]). assert (elem l1 n i) as H1 by (apply elem_map; exists (i, k); split; [exact Hnm|reflexivity]).
    rewrite (Va n H2). unfold q. rewrite set_at_set. rewrite gather_set, gather_set_p, set_at_set. rewrite gather_remove by exact Hlp. f_equal.
    rewrite nth_set_same by (rewrite length_remove_at; lia). rewrite (znth_elem _ _ _ H1). reflexivity.
  - rewrite Vb.
    + apply Vo. exact Hq.
    + intros H. apply in_map_iff in H as ([i j] & E & Him). cbn in E. subst j. apply Hm in Him as (Bi & _ & Hr). apply (HT i). apply Hk; assumption.
Qed.
End SplitView.
