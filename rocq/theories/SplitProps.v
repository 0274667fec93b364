(** C58, C59: splitting a time axis into years and the rest, and joining the two again. *)
From Coq Require Import ZArith List Bool Lia ZifyBool QArith_base Qround.
From Verif Require Import CalModel CalSpec CalProofs TimeSearchModel TimeSearchSpec TimeSearchProofs TimeMapProofs TimeDateProofs SortSpec IndexModel IndexSpec IndexProofs ArrModel ArrProofs
  ViewModel ViewSpec ViewProofs AxisModel AxisSpec AxisProofs VarOpsModel VarOpsSpec VarOpsProofs NumModel NumProofs ReduceModel ReduceSpec ArgProofs StencilModel StencilSpec StencilProofs StencilProps IntgrProofs
  RespondProofs ChunkProofs LoopProofs FlattenProofs LagProofs InterpView SmoothModel SmoothView WindowModel WindowProofs CompositeProofs ConcatModel ConcatProofs ConcatVar ClimModel ClimSpec ClimAxis ClimChunk ClimView
  MultiFileRead TickMonth SplitModel SplitSpec SplitProofs SplitView SplitJoin EnvExample ViewProps ReduceProps WindowProps ClimProps.
Import ListNotations.
Open Scope Z_scope.
Notation zlen := IndexSpec.zlen.
Notation znth := ArrModel.znth.

(** *** axes *)
Lemma insert_after {X} (l : list X) i x y : (i < length l)%nat -> insert_at (set_at l i x) (S i) y = firstn i l ++ x :: y :: skipn (S i) l.
Proof. revert l. induction i as [|i IH]; intros [|z l] H; cbn [length] in H; try lia; [reflexivity|]. cbn [set_at insert_at firstn skipn app]. f_equal. apply IH. lia. Qed.
Lemma insert_before {X} (l : list X) i x y : (i < length l)%nat -> insert_at (set_at l i x) (S i) y = insert_at (set_at l i y) i x.
Proof. revert l. induction i as [|i IH]; intros [|z l] H; cbn [length] in H; try lia; [reflexivity|]. cbn [set_at insert_at]. f_equal. apply IH. lia. Qed.
Lemma years_unrelated env n y l b : unrelated (year_axis env n y []) b -> unrelated (year_axis env n y l) b.
Proof. destruct b as [c|c|c]; cbn; auto. Qed.
Lemma unrelated_years env n y l b : unrelated b (year_axis env n y []) -> unrelated b (year_axis env n y l).
Proof. destruct b as [c|c|c]; cbn; auto. Qed.

(** the axis of years can be told apart from the axes *)
Definition apart_from_years (env : axenv) (named : list Z) (year_name : Z) (axes : list axis) : Prop :=
  forall b, In b axes -> unrelated (year_axis env named year_name []) b /\ unrelated b (year_axis env named year_name []).

Lemma split_separate env named year_name A ti t ys days : separate A -> nth_error A ti = Some (Time t) -> (forall i s, nth_error A i = Some (Time s) -> i = ti) ->
  t_class days = t_class t -> apart_from_years env named year_name A -> separate (insert_at (set_at A ti (year_axis env named year_name ys)) (S ti) (Time days)).
Proof.
  intros Hsep Ht Ho Hc Ha. assert (ti < length A)%nat as Hlt by (apply nth_error_Some; congruence). rewrite insert_before by exact Hlt. apply separate_insert.
  - apply (A'_sep A Hsep ti t Ht Ho days Hc).
  - rewrite length_set_at. lia.
  - intros b Hb. apply In_nth_error in Hb as (j & Hj). rewrite nth_error_set_at in Hj by exact Hlt. destruct (Nat.eqb_spec ti j) as [_|N].
    + injection Hj as <-. split; exact Logic.I.
    + apply nth_error_In in Hj. apply Ha in Hj as [H1 H2]. split; [now apply years_unrelated|now apply unrelated_years].
Qed.

(** *** splitting *)
Lemma split_made : forall env lexsort junk named year_name, env_ok env -> lexsort_ok lexsort -> forall x D ti t,
  responds env x D -> time_axis x ti t -> good_axis (Time t) -> my (t_mask t) = true -> some_field (other_fields (t_mask t)) -> t_cal t <> Yearless ->
  apart_from_years env named year_name (var_axes x) ->
  exists y ys days E, split_var env lexsort junk named year_name x ti = Some y /\
    var_axes y = firstn ti (var_axes x) ++ year_axis env named year_name ys :: Time days :: skipn (S ti) (var_axes x) /\
    increasing ys /\ (forall z, In z ys <-> exists i, 0 <= i < zlen (t_dates t) /\ year (date_at t i) = z) /\
    good_axis (Time days) /\ groups (other_fields (t_mask t)) t days /\
    computes env y E /\ splits D ti t ys days (var_shape y) E /\ Forall (fun d => d = get_dates (mask_date (other_fields (t_mask t)) d)) (t_dates days) /\ Forall (fun y => -99998 <= y <= 99998) ys.
Proof.
  intros env lexsort junk named year_name Henv Hlex x D ti t Hx [Ht Ho] Gt Hy Hf Hc Ha.
  assert (ti < length (var_axes x))%nat as Hlt by (apply nth_error_Some; congruence).
  destruct (modify_spec lexsort Hlex t (without_year (t_mask t)) Gt Hf) as (days & Ed & Gd & D1 & D2 & D3 & D4 & D5). { destruct (t_mask t) as [[] [] [] [] [] []]; reflexivity. }
  assert (groups (without_year (t_mask t)) t days) as Hg by (repeat split; try assumption; apply D5).
  set (ys := np_unique (map year (t_dates t))).
  assert (NoDup ys) as Hn by apply increasing_NoDup, sorted_increasing, unique_sorted.
  assert (forall z, In z ys <-> exists i, 0 <= i < zlen (t_dates t) /\ year (date_at t i) = z) as Hys.
  { intros z. unfold ys. rewrite unique_In. split.
    - intros H. apply in_map_iff in H as (d & <- & H). apply In_elem in H as (i & Hi). pose proof (elem_range _ _ _ Hi) as B. exists i. split; [exact B|].
      unfold date_at. now rewrite (nth_error_nth _ _ date0 (proj2 Hi)).
    - intros (i & Hi & <-). apply in_map. unfold date_at. apply nth_In, within. exact Hi. }
  assert (Forall (fun y => -99998 <= y <= 99998) ys) as Hb.
  { apply Forall_forall. intros z Hz. apply Hys in Hz as (i & Hi & <-). destruct Gt as (_ & _ & _ & _ & _ & G). 
    assert (In (project (t_mask t) (date_at t i)) (records (t_mask t) t)) as Hr by (apply in_map; unfold date_at; apply nth_In, within; exact Hi).
    pose proof (proj1 (Forall_forall _ _) G _ Hr) as B. rewrite project_year in B by exact Hy. exact (Forall_inv B). }
  exists (Var (axes env named year_name x ti ys days) (GetView (split_view env lexsort junk x ti))), ys, days, (split_data D ti t ys days).
  split; [|split; [|split; [|split; [exact Hys|split; [exact Gd|split; [exact Hg|split; [|split; [|split; [exact (modify_masked lexsort t (without_year (t_mask t)) days Hlex Hf Ed)|exact Hb]]]]]]]]].
  - unfold split_var. rewrite Ht. cbn [bind]. unfold splittime. rewrite Hy, Ed. cbn [bind]. unfold axes. rewrite insert_after by exact Hlt. reflexivity.
  - cbn [var_axes]. unfold axes. now apply insert_after.
  - apply sorted_increasing, unique_sorted.
  - apply (computed env Henv). split; cbn [var_axes var_source].
    + apply (split_separate env named year_name (var_axes x) ti t ys days); try assumption. apply Hx.
    + intros L HL. exact (split_view_spec env Henv lexsort Hlex junk named year_name x D Hx ti t Ht Gt Hy Hc ys Hn Hb days Gd Hg L HL).
  - intros q y Hq He. unfold split_data. assert (znth ys (nth ti q 0) = y) as -> by (destruct He as [_ He]; unfold ArrModel.znth; now apply nth_error_nth).
    pose proof (time_on_spec D t ys days y (nth (S ti) q 0)) as Hs. destruct (time_on t days y (nth (S ti) q 0)) as [i|]; split.
    + intros i' Hi'. now rewrite (on_day_one D t Gt Hy ys days Hg _ _ _ _ Hs Hi').
    + intros Hno. now apply Hno in Hs.
    + intros i' Hi'. now apply Hs in Hi'.
    + reflexivity.
Qed.
Theorem C58_split : forall env lexsort junk named year_name, env_ok env -> lexsort_ok lexsort -> forall x D ti t,
  responds env x D -> time_axis x ti t -> good_axis (Time t) -> my (t_mask t) = true -> some_field (other_fields (t_mask t)) -> t_cal t <> Yearless ->
  apart_from_years env named year_name (var_axes x) ->
  exists y ys days E, split_var env lexsort junk named year_name x ti = Some y /\
    var_axes y = firstn ti (var_axes x) ++ year_axis env named year_name ys :: Time days :: skipn (S ti) (var_axes x) /\
    increasing ys /\ (forall z, In z ys <-> exists i, 0 <= i < zlen (t_dates t) /\ year (date_at t i) = z) /\
    good_axis (Time days) /\ groups (other_fields (t_mask t)) t days /\
    computes env y E /\ splits D ti t ys days (var_shape y) E.
Proof.
  intros. destruct (split_made env lexsort junk named year_name H H0 x D ti t H1 H2 H3 H4 H5 H6 H7) as (y & ys & days & E & K). exists y, ys, days, E. destruct K as (K1 & K2 & K3 & K4 & K5 & K6 & K7 & K8 & _). auto 10.
Qed.
Print Assumptions C58_split.

(** every date has exactly one place, and every place at most one date *)
Theorem C58_complete : forall t ys days, good_axis (Time t) -> my (t_mask t) = true -> good_axis (Time days) -> increasing ys ->
  (forall z, In z ys <-> exists i, 0 <= i < zlen (t_dates t) /\ year (date_at t i) = z) -> groups (other_fields (t_mask t)) t days ->
  (forall i, 0 <= i < zlen (t_dates t) -> exists a b, elem ys a (year (date_at t i)) /\ 0 <= b < zlen (t_dates days) /\ on_day t (year (date_at t i)) days b i /\
    forall a' b' y', elem ys a' y' -> 0 <= b' < zlen (t_dates days) -> on_day t y' days b' i -> a' = a /\ b' = b) /\
  (forall y b i i', on_day t y days b i -> on_day t y days b i' -> i = i').
Proof.
  intros t ys days Gt Hy Gd Hi Hys Hg. pose proof Hg as (H1 & H2 & H3 & H4 & H5). split.
  - intros i B. assert (In (year (date_at t i)) ys) as Hin by (apply Hys; exists i; auto). apply In_elem in Hin as (a & Ea).
    assert (In (record_of (other_fields (t_mask t)) t i) (records (other_fields (t_mask t)) days)) as Hr.
    { apply H5. apply nth_In. unfold records. rewrite map_length. apply within. exact B. }
    apply at_in in Hr as (b & Hb). pose proof Hb as Hb0. apply record_at in Hb as [Bb Eb]. exists a, b. split; [exact Ea|]. split; [exact Bb|].
    split; [unfold on_day; rewrite H3; auto|]. intros a' b' y' Ea' Bb' (_ & Ey & Er). rewrite H3 in Er. subst y'. split.
    + apply (elem_once Z.eq_dec ys a' a (year (date_at t i))); [apply increasing_NoDup, Hi|exact Ea'|exact Ea].
    + destruct Gd as (_ & _ & _ & _ & Hnd & _). rewrite H3 in Hnd. apply (NoDup_at _ b' b (record_of (other_fields (t_mask t)) t i) Hnd); [apply record_at; auto|exact Hb0].
  - intros y b i i'. apply (on_day_one (fun _ => NaN) t Gt Hy [] days Hg).
Qed.
Print Assumptions C58_complete.

(** an axis without years, or with nothing but years, is refused *)
Theorem C58_refused : forall env lexsort junk named year_name x ti t, lexsort_ok lexsort -> nth_error (var_axes x) ti = Some (Time t) ->
  my (t_mask t) = false \/ ~ some_field (other_fields (t_mask t)) -> split_var env lexsort junk named year_name x ti = None.
Proof.
  intros env lexsort junk named year_name x ti t Hlex Ht H. unfold split_var. rewrite Ht. cbn [bind]. unfold splittime. destruct H as [-> | H]; [reflexivity|]. destruct (my (t_mask t)); [|reflexivity].
  assert (without_year (t_mask t) = mkmask false false false false false false) as ->. { revert H. unfold some_field, other_fields, without_year. destruct (t_mask t) as [a [] [] [] [] []]; cbn; intros H; try reflexivity; exfalso; apply H; discriminate. }
  assert (modify lexsort t (mkmask false false false false false false) = None) as ->; [|reflexivity].
  unfold modify. reflexivity.
Qed.
Print Assumptions C58_refused.

(** *** joining *)
(** the places of the two axes and of the joined one *)
Definition joined_place (yi : nat) (nd : Z) (p : list Z) : list Z := set_at (remove_at p (S yi)) yi (nth yi p 0 * nd + nth (S yi) p 0).

Theorem C59_join : forall env lexsort junk named year_name, env_ok env -> lexsort_ok lexsort -> forall x D yi l days,
  responds env x D -> nth_error (var_axes x) yi = Some (year_axis env named year_name l) -> time_axis x (S yi) days -> good_axis (Time days) ->
  my (t_mask days) = false -> t_cal days <> Yearless -> t_dates days <> [] -> l <> [] -> NoDup l -> Forall (fun y => -99998 <= y <= 99998) l ->
  (forall y d, In y l -> In d (t_dates days) -> valid_date (t_cal days) (in_year y d)) ->
  exists y T E, join_var env lexsort junk named year_name x yi (S yi) = Some y /\
    var_axes y = firstn yi (var_axes x) ++ Time T :: skipn (S (S yi)) (var_axes x) /\
    good_axis (Time T) /\ t_class T = t_class days /\ t_cal T = t_cal days /\ t_mask T = with_years (t_mask days) /\
    zlen (t_dates T) = zlen l * zlen (t_dates days) /\
    (forall a b z, elem l a z -> 0 <= b < zlen (t_dates days) -> date_at T (a * zlen (t_dates days) + b) = in_year z (date_at days b)) /\
    computes env y E /\ forall p, position (var_shape x) p -> E (joined_place yi (zlen (t_dates days)) p) = D p.
Proof.
  intros env lexsort junk named year_name Henv Hlex x D yi l days Hx Hy [Hd Ho] Gd Hm Hc Hdn Hln Hl Hlb Hval.
  destruct (jointime_spec (map inject_Z l) days) as (T & ET & T1 & T2 & T3 & T4 & T5 & T6 & T7).
  - intros E. apply map_eq_nil in E. contradiction.
  - exact Hdn.
  - exact Hc.
  - destruct Gd as (_ & G & _). eapply Forall_impl; [|exact G]. intros d Hd'. apply (valid_months (t_cal days) d Hc Hd').
  - assert (t_dates T = grid l (t_dates days) in_year) as ED.
    { rewrite T5, map_map. f_equal. rewrite <- (map_id l) at 2. apply map_ext. intros z. apply Qfloor_Z. }
    assert (Forall (valid_date (t_cal days)) (t_dates T)) as HV.
    { apply Forall_forall. intros d Hd'. rewrite ED in Hd'. apply grid_In in Hd' as (z & e & Hz & He & ->). now apply Hval. }
    pose proof (joined_good l days T Hl Hlb Gd Hm Hc ET HV) as (GT & _).
    assert (S yi < length (var_axes x))%nat as Hlt by (apply nth_error_Some; congruence).
    assert (joined_axes x yi T = firstn yi (var_axes x) ++ Time T :: skipn (S (S yi)) (var_axes x)) as EA.
    { unfold joined_axes. clear -Hlt. revert yi Hlt. induction (var_axes x) as [|a A IH]; intros [|yi] Hlt; cbn [length] in Hlt; try lia; [destruct A; [cbn in Hlt; lia|reflexivity]|].
      cbn [remove_at set_at firstn skipn app]. f_equal. apply IH. lia. }
    exists (Var (joined_axes x yi T) (GetView (join_view env lexsort junk named year_name x yi (S yi)))), T, (fun p => unmerged D yi (zlen (t_dates days)) p (nth yi p 0)).
    split; [|split; [exact EA|split; [exact GT|split; [exact T1|split; [exact T2|split; [exact T4|split; [|split; [|split]]]]]]]].
    + unfold join_var. destruct (Nat.ltb_spec yi (S yi)); [|lia]. rewrite Hy. cbn [bind]. rewrite Hd. cbn [bind].
      assert (axis_vals (year_axis env named year_name l) = map inject_Z l) as -> by reflexivity. rewrite ET. cbn [bind]. reflexivity.
    + rewrite ED. unfold grid, IndexSpec.zlen. clear. induction l as [|z l IH]; [reflexivity|]. cbn [map List.concat length]. rewrite app_length, map_length. lia.
    + intros a b z Ha Hb. pose proof (grid_elem (t_dates days) in_year l a b z (date_at days b) Ha) as He. rewrite <- ED in He.
      destruct He as [_ He]; [split; [lia|]; unfold date_at; apply nth_error_nth', within; exact Hb|]. unfold date_at at 1. now apply nth_error_nth.
    + apply (computed env Henv). split; cbn [var_axes var_source].
      * intros i j a b Hi Hj Hne. pose proof (N_nth env junk named year_name x yi l days Hy Hd Ho T) as HN.
        rewrite HN in Hi, Hj.
        assert (forall k e, (if Nat.ltb k yi then nth_error (var_axes x) k else if Nat.eqb k yi then Some (Time T) else nth_error (var_axes x) (S k)) = Some e -> 
          (k = yi /\ e = Time T) \/ (k <> yi /\ nth_error (var_axes x) (if Nat.ltb k yi then k else S k) = Some e /\ match e with Time _ => False | _ => True end)) as Hcase.
        { intros k e He. destruct (Nat.ltb_spec k yi); [|destruct (Nat.eqb_spec k yi) as [-> |]].
          - right. split; [lia|]. split; [exact He|]. destruct e; auto. apply Ho in He. lia.
          - left. split; [reflexivity|congruence].
          - right. split; [assumption|]. split; [exact He|]. destruct e; auto. apply Ho in He. lia. }
        destruct Hx as [Hsep _].
        apply Hcase in Hi as [[-> ->]|(Ni & Hi & Ci)]; apply Hcase in Hj as [[-> ->]|(Nj & Hj & Cj)]; try contradiction.
        -- destruct b; try exact Logic.I. contradiction.
        -- apply (unrelated_time days T a Ci T1). apply (Hsep _ (S yi) _ _ Hi Hd). destruct (Nat.ltb_spec i yi); lia.
        -- apply (Hsep _ _ _ _ Hi Hj). destruct (Nat.ltb_spec i yi), (Nat.ltb_spec j yi); lia.
      * intros K HK. exact (join_view_spec env Henv lexsort Hlex junk named year_name x D yi l days T K Hx Hl Hlb Gd Hm Hc Hy Hd Ho ET HV HK).
    + intros p Hp. unfold joined_place, unmerged.
      pose proof (Forall2_len _ _ _ Hp) as Lp. unfold var_shape in Lp. rewrite map_length in Lp.
      assert (0 <= nth (S yi) p 0 < zlen (t_dates days)) as B.
      { assert (nth_error (var_shape x) (S yi) = Some (zlen (t_dates days))) as Hs by (unfold var_shape; rewrite nth_error_map, Hd; reflexivity).
        assert (nth_error p (S yi) = Some (nth (S yi) p 0)) as Hp' by (apply nth_error_nth'; lia). exact (Forall2_nth_error _ _ _ _ _ _ Hp Hs Hp'). }
      rewrite nth_set_same.
      2:{ rewrite length_remove_at by lia. lia. }
      assert (0 < zlen (t_dates days)) as Bp by lia.
      rewrite Z.div_add_l, Z.div_small, Z.add_0_r by lia. rewrite (Z.add_comm (_ * _)), Z.mod_add, Z.mod_small by lia. rewrite set_at_set. f_equal.
      clear -Lp Hlt. assert (S yi < length p)%nat as Hp by lia. clear Lp Hlt. revert yi Hp. induction p as [|a p IH]; intros [|yi] Hp; cbn [length] in Hp; try lia; [destruct p; [cbn in Hp; lia|reflexivity]|].
      cbn [remove_at set_at insert_at nth]. f_equal. apply (IH yi). lia.
Qed.
Print Assumptions C59_join.

(** *** there and back: joining what has been split finds every element again at its date *)
Theorem C59_round_trip : forall env lexsort junk named year_name, env_ok env -> lexsort_ok lexsort -> forall x D ti t,
  responds env x D -> time_axis x ti t -> good_axis (Time t) -> my (t_mask t) = true -> some_field (other_fields (t_mask t)) -> t_cal t <> Yearless -> t_dates t <> [] ->
  apart_from_years env named year_name (var_axes x) ->
  (forall i j, 0 <= i < zlen (t_dates t) -> 0 <= j < zlen (t_dates t) -> valid_date (t_cal t) (in_year (year (date_at t i)) (date_at t j))) ->
  exists y z T E, split_var env lexsort junk named year_name x ti = Some y /\ join_var env lexsort junk named year_name y ti (S ti) = Some z /\
    var_axes z = firstn ti (var_axes x) ++ Time T :: skipn (S ti) (var_axes x) /\ good_axis (Time T) /\ t_mask T = t_mask t /\
    (forall i, 0 <= i < zlen (t_dates t) -> exists j, 0 <= j < zlen (t_dates T) /\ record_of (t_mask t) T j = record_of (t_mask t) t i) /\
    computes env z E /\
    forall q, position (var_shape z) q ->
      (forall i, 0 <= i < zlen (t_dates t) -> record_of (t_mask t) t i = record_of (t_mask t) T (nth ti q 0) -> E q = D (set_at q ti i)) /\
      ((forall i, 0 <= i < zlen (t_dates t) -> record_of (t_mask t) t i <> record_of (t_mask t) T (nth ti q 0)) -> E q = NaN).
Proof.
  intros env lexsort junk named year_name Henv Hlex x D ti t Hx Hti Gt Hy Hf Hc Hne Ha Hval. pose proof Hti as [Ht Ho].
  assert (ti < length (var_axes x))%nat as Hlt by (apply nth_error_Some; congruence).
  destruct (split_made env lexsort junk named year_name Henv Hlex x D ti t Hx Hti Gt Hy Hf Hc Ha) as (y & ys & days & E & Ey & Ay & Iy & Hys & Gd & Hg & [Ry _] & Hsp & Hmask & Hyb).
  pose proof Hg as (G1 & G2 & G3 & G4 & G5).
  destruct (C58_complete t ys days Gt Hy Gd Iy Hys Hg) as [Hc1 Hc2].
  assert (var_axes y = insert_at (set_at (var_axes x) ti (year_axis env named year_name ys)) (S ti) (Time days)) as Ay' by (rewrite insert_after by exact Hlt; exact Ay).
  assert (0 < zlen (t_dates t)) as H0t by (destruct (t_dates t); [contradiction|unfold IndexSpec.zlen; cbn; lia]).
  assert (firstn ti (var_axes y) = firstn ti (var_axes x) /\ skipn (S (S ti)) (var_axes y) = skipn (S ti) (var_axes x)) as [F1 F2].
  { rewrite Ay. clear -Hlt. revert ti Hlt. induction (var_axes x) as [|a A IH]; intros [|ti] Hlt; cbn [length] in Hlt; try lia; [auto|]. destruct (IH ti ltac:(lia)) as [I1 I2]. split; [cbn [firstn app]; f_equal; exact I1|exact I2]. }
  destruct (C59_join env lexsort junk named year_name Henv Hlex y E ti ys days Ry) as (z & T & E' & Ez & Az & GT & T1 & T2 & T3 & T4 & T5 & Cz & Hz).
  - rewrite Ay', nth_error_insert_at by (rewrite length_set_at; lia). destruct (Nat.ltb_spec ti (S ti)); [|lia]. rewrite nth_error_set_at by exact Hlt. now rewrite Nat.eqb_refl.
  - split.
    + rewrite Ay', nth_error_insert_at by (rewrite length_set_at; lia). destruct (Nat.ltb_spec (S ti) (S ti)); [lia|]. now rewrite Nat.eqb_refl.
    + intros i s. rewrite Ay', nth_error_insert_at by (rewrite length_set_at; lia). destruct (Nat.ltb_spec i (S ti)); [|destruct (Nat.eqb_spec i (S ti)); [intros _; assumption|]].
      * rewrite nth_error_set_at by exact Hlt. destruct (Nat.eqb_spec ti i); [discriminate|]. intros Hi. apply Ho in Hi. lia.
      * rewrite nth_error_set_at by exact Hlt. destruct (Nat.eqb_spec ti (i - 1)); [discriminate|]. intros Hi. apply Ho in Hi. lia.
  - exact Gd.
  - rewrite G3. reflexivity.
  - rewrite G2. exact Hc.
  - destruct (Hc1 0 ltac:(lia)) as (a & b & _ & Hb & _). intros EE. rewrite EE in Hb. unfold IndexSpec.zlen in Hb. cbn in Hb. lia.
  - destruct (Hc1 0 ltac:(lia)) as (a & b & [Ha1 Ha2] & _). intros EE. rewrite EE in Ha2. destruct (Z.to_nat a); discriminate.
  - apply increasing_NoDup, Iy.
  - exact Hyb.
  - intros z d Hz Hd. rewrite G2. apply Hys in Hz as (i & Hi & <-).
    assert (In (project (other_fields (t_mask t)) d) (records (other_fields (t_mask t)) t)) as Hr by (apply G5; unfold records; now apply in_map).
    unfold records in Hr. apply in_map_iff in Hr as (e & Ee & He). apply In_elem in He as (j & Hj).
    assert (d = get_dates (mask_date (other_fields (t_mask t)) e)) as -> by (rewrite (proj1 (Forall_forall _ _) Hmask d Hd), <- !date_of_project, Ee; reflexivity).
    rewrite masked_in_year. apply masked_valid. pose proof (elem_range _ _ _ Hj) as Bj. specialize (Hval i j Hi Bj). unfold date_at in Hval at 2. rewrite (nth_error_nth _ _ date0 (proj2 Hj)) in Hval. exact Hval.
  - rewrite F1, F2 in Az. assert (t_mask T = t_mask t) as Em by (rewrite T3, G3; now apply with_without).
    set (nd := zlen (t_dates days)) in *.
    assert (0 < nd) as Hnd. { destruct (Hc1 0 ltac:(lia)) as (a & b & _ & Hb & _). fold nd in Hb. lia. }
    assert (forall a b i yr, elem ys a yr -> 0 <= b < nd -> 0 <= i < zlen (t_dates t) -> on_day t yr days b i <-> record_of (t_mask t) t i = record_of (t_mask t) T (a * nd + b)) as Hday.
    { intros a b i yr Ea Hb Hi. assert (0 <= a * nd + b < zlen (t_dates T)) as Bn. { rewrite T4. pose proof (elem_range _ _ _ Ea). nia. }
      rewrite !record_date by assumption. rewrite (T5 a b yr Ea Hb). rewrite (project_year _ (date_at t i)), (project_year _ (in_year yr (date_at days b))) by exact Hy. change (year (in_year yr (date_at days b))) with yr. unfold on_day. rewrite G3.
      assert (project (without_year (t_mask t)) (in_year yr (date_at days b)) = project (without_year (t_mask t)) (date_at days b)) as -> by (apply project_other; reflexivity).
      rewrite !record_date by assumption. change (without_year (t_mask t)) with (other_fields (t_mask t)). split.
      - intros (_ & -> & ->). reflexivity.
      - intros EE. injection EE as E1 E2. auto. }
    exists y, z, T, E'. split; [exact Ey|]. split; [exact Ez|]. split; [exact Az|]. split; [exact GT|]. split; [exact Em|]. split; [|split; [exact Cz|]].
    + intros i Hi. destruct (Hc1 i Hi) as (a & b & Ea & Bb & Hon & _). exists (a * nd + b). split.
      * rewrite T4. pose proof (elem_range _ _ _ Ea). fold nd in Bb. nia.
      * symmetry. apply (Hday a b i _ Ea Bb Hi). exact Hon.
    + intros q Hq. assert (var_axes z = set_at (var_axes x) ti (Time T)) as Az'.
      { rewrite Az. clear -Hlt. revert ti Hlt. induction (var_axes x) as [|e A IH]; intros [|ti] Hlt; cbn [length] in Hlt; try lia; [reflexivity|]. cbn [set_at firstn skipn app]. f_equal. apply IH. lia. }
      pose proof (Forall2_len _ _ _ Hq) as Lq. unfold var_shape in Lq. rewrite map_length, Az', length_set_at in Lq.
      assert (0 <= nth ti q 0 < zlen (t_dates T)) as Bn.
      { assert (nth_error (var_shape z) ti = Some (zlen (t_dates T))) as Hs by (unfold var_shape; rewrite nth_error_map, Az', nth_error_set_at, Nat.eqb_refl by exact Hlt; reflexivity).
        assert (nth_error q ti = Some (nth ti q 0)) as Hp' by (apply nth_error_nth'; lia). exact (Forall2_nth_error _ _ _ _ _ _ Hq Hs Hp'). }
      set (n := nth ti q 0) in *. rewrite T4 in Bn.
      pose proof (Z.mod_pos_bound n nd Hnd) as Hmod. pose proof (Z.div_mod n nd ltac:(lia)) as Ediv.
      assert (0 <= n / nd < zlen ys) as Hdv by (split; [apply Z.div_pos; lia|apply Z.div_lt_upper_bound; lia]).
      set (a := n / nd) in *. set (b := n mod nd) in *.
      pose proof (elem_znth ys a Hdv) as Ea.
      set (p := insert_at (set_at q ti a) (S ti) b).
      assert (remove_at p (S ti) = set_at q ti a) as Rp by (unfold p; apply remove_insert; rewrite length_set_at; lia).
      assert (nth ti p 0 = a /\ nth (S ti) p 0 = b) as [Pa Pb].
      { assert (ti < length q)%nat as Hq' by lia. unfold p. clearbody a b n. clear -Hq'. revert ti Hq'. induction q as [|e q IH]; intros [|ti] Hq'; cbn [length] in Hq'; try lia; [split; reflexivity|]. cbn [set_at insert_at nth]. apply (IH ti). lia. }
      assert (joined_place ti nd p = q) as Ej.
      { unfold joined_place. rewrite Rp, set_at_set, Pa, Pb. replace (a * nd + b) with n by lia. apply set_at_nth. unfold n. apply nth_error_nth'. lia. }
      assert (position (var_shape y) p) as Hp.
      { unfold position, var_shape. rewrite Ay', map_insert, map_set_at. unfold p. apply Forall2_insert; [|exact Hmod]. unfold position, var_shape in Hq. rewrite Az', map_set_at in Hq.
        rewrite <- (set_at_set _ ti (zlen (t_dates T))). replace (axis_len (year_axis env named year_name ys)) with (zlen ys) by (symmetry; apply ya_len). apply Forall2_set_both; [exact Hq|exact Hdv]. }
      pose proof (Hz p Hp) as HE. rewrite Ej in HE. rewrite HE. destruct (Hsp p (znth ys a) Hp) as [S1 S2]; [rewrite Pa; exact Ea|]. rewrite Pb in S1, S2. rewrite Rp in S1. split.
      * intros i Hi Hr. rewrite <- (set_at_set q ti a i). apply S1. apply (Hday a b i _ Ea Hmod Hi). replace (a * nd + b) with n by lia. exact Hr.
      * intros Hno. apply S2. intros i Hon. assert (0 <= i < zlen (t_dates t)) as Hi by apply Hon. apply (Hno i Hi). apply (Hday a b i _ Ea Hmod Hi) in Hon. rewrite Hon. f_equal. lia.
Qed.
Print Assumptions C59_round_trip.

(** *** examples *)
Definition year_class : list Z := [3; 9].
Definition year_77 : Z := 77.
(** daily data of two years (see C27): the years 2000 and 2001; January 1st, January 2nd and February 1st *)
Definition two_years : option (var axis num) := split_var env0 row_sort zs year_class year_77 daily 1.
Example C58_example :
  option_map (fun y => map axis_len (var_axes y)) two_years = Some [2; 2; 3] /\
  show two_years [[0; 1]; [0; 1]; [0; 1; 2]] [[0; 0; 0]; [0; 0; 1]; [0; 0; 2]; [0; 1; 0]; [0; 1; 1]; [0; 1; 2]; [1; 0; 0]; [1; 0; 2]]
    = Some ([2; 2; 3], [Some 10; Some 160; Some 40; Some 90; None; Some 0; Some 110; None]%Q) /\
  show two_years [[1]; [1]; [0; 2]] [[0; 0; 0]; [0; 0; 1]] = Some ([1; 1; 2], [Some 190; Some 100]%Q).
Proof. split; [|split]; vm_compute; reflexivity. Qed.
Lemma daily_apart : apart_from_years env0 year_class year_77 (var_axes daily).
Proof. intros b [<-|[<-|[]]]; vm_compute; auto. Qed.
Example C58_used : exists y ys days E, two_years = Some y /\ groups (other_fields (t_mask days5)) days5 days /\ computes env0 y E /\ splits readings 1 days5 ys days (var_shape y) E.
Proof.
  destruct (C58_split env0 row_sort zs year_class year_77 env0_ok row_sort_ok daily readings 1 days5 daily_responds daily_time days5_good eq_refl) as (y & ys & days & E & H1 & _ & _ & _ & _ & H2 & H3 & H4);
    [discriminate|discriminate|exact daily_apart|]. exists y, ys, days, E. auto.
Qed.
Definition joined_again : option (var axis num) := bind two_years (fun y => join_var env0 row_sort zs year_class year_77 y 1 2).
Example C59_example :
  show joined_again [[0; 1]; [0; 1; 2; 3; 4; 5]] [[0; 0]; [0; 1]; [0; 2]; [0; 3]; [0; 4]; [0; 5]] = Some ([2; 6], [Some 10; Some 160; Some 40; Some 90; None; Some 0]%Q) /\
  show joined_again [[0; 1]; [2; 4; 5]] [[0; 0]; [0; 1]; [0; 2]] = Some ([2; 3], [Some 40; None; Some 0]%Q).
Proof. split; vm_compute; reflexivity. Qed.
Example C59_used : exists y z T E, two_years = Some y /\ join_var env0 row_sort zs year_class year_77 y 1 2 = Some z /\ var_axes z = [lat2; Time T] /\ computes env0 z E.
Proof.
  destruct (C59_round_trip env0 row_sort zs year_class year_77 env0_ok row_sort_ok daily readings 1 days5 daily_responds daily_time days5_good eq_refl) as (y & z & T & E & H1 & H2 & H3 & _ & _ & _ & H4 & _);
    [discriminate|discriminate|discriminate|exact daily_apart| |exists y, z, T, E; auto].
  intros i j Hi Hj. change (zlen (t_dates days5)) with 5 in *.
  assert (forall y, month_length Std y 1 31) as M1 by (intros y; apply ml_31; auto).
  assert (month_length Std 2001 2 28) as M2 by (apply ml_feb_std; intros [[k Hk] _]; cbn in Hk; lia).
  assert (month_length Std 2000 2 29) as M3 by (apply ml_feb_leap; split; [exists 500; reflexivity|right; exists 5; reflexivity]).
  assert (i = 0 \/ i = 1 \/ i = 2 \/ i = 3 \/ i = 4) as Ci by lia. assert (j = 0 \/ j = 1 \/ j = 2 \/ j = 3 \/ j = 4) as Cj by lia. clear Hi Hj.
  destruct Ci as [-> |[-> |[-> |[-> | ->]]]], Cj as [-> |[-> |[-> |[-> | ->]]]]; repeat (match goal with |- context [date_at days5 ?i] => let v := eval vm_compute in (date_at days5 i) in change (date_at days5 i) with v end); repeat split; try (cbn; lia); first [exists 31; split; [apply M1|cbn; lia]|exists 28; split; [exact M2|cbn; lia]|exists 29; split; [exact M3|cbn; lia]].
Qed.

(** With another axis between the years and the days, joining them gives a variable whose data cannot be read. *)
Definition apart_axes : var axis num := source [year_axis env0 year_class year_77 [2000; 2001]; lat2; Time (MkTime [3; 5] Std (mkpdate None (Some 1) (Some 1) None None None) Days (mkmask false true true false false false)
   [mkdate 0 1 1 0 0 0; mkdate 0 1 2 0 0 0; mkdate 0 1 3 0 0 0] [0; 1; 2]%Q)] (fun q => num_of_Z (100 * nth 0 q 0 + 10 * nth 1 q 0 + nth 2 q 0)).
Theorem C59_apart_refuted : exists y T, join_var env0 row_sort zs year_class year_77 apart_axes 0 2 = Some y /\ var_axes y = [Time T; lat2] /\ zlen (t_dates T) = 6 /\
  ViewModel.get (axis_ops env0) zs (view_of_inds (var_axes y) [[0; 1; 2; 3; 4; 5]; [0; 1]]) y true true = None.
Proof.
  assert (match join_var env0 row_sort zs year_class year_77 apart_axes 0 2 with
    | Some y => match var_axes y with [Time T; a] => a = lat2 /\ zlen (t_dates T) = 6 | _ => False end /\ match ViewModel.get (axis_ops env0) zs (view_of_inds (var_axes y) [[0; 1; 2; 3; 4; 5]; [0; 1]]) y true true with Some _ => False | None => True end
    | None => False end) as H by (vm_compute; auto).
  destruct (join_var env0 row_sort zs year_class year_77 apart_axes 0 2) as [y|]; [|contradiction]. destruct H as [H1 H2]. exists y.
  destruct (var_axes y) as [|[| |T] [|a [|]]]; try contradiction. destruct H1 as [-> H1]. exists T. split; [reflexivity|]. split; [reflexivity|]. split; [exact H1|].
  destruct (ViewModel.get _ _ _ _ _ _); [contradiction|reflexivity].
Qed.
Print Assumptions C59_apart_refuted.
