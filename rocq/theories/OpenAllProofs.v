(** Proofs about variables that are spread over several files. *)
From Coq Require Import ZArith List Bool Lia QArith_base Permutation.
From Verif Require Import CalModel CalSpec TimeSearchModel TimeSearchSpec SortSpec IndexModel IndexSpec IndexProofs ArrModel ArrProofs ViewModel ViewSpec ViewProofs AxisModel AxisSpec AxisProofs
  VarOpsModel VarOpsSpec VarOpsProofs VarOpsLemmas ReduceModel ReduceSpec RespondProofs UfuncSpec StencilModel StencilSpec ConcatModel ConcatSpec ConcatAxis ConcatVar ConcatProps StencilProps
  SortAny OpenAllModel OpenAllSpec.
From Verif Require DsMapProofs LoopProofs ChunkProofs StencilProofs.
Import ListNotations.
Open Scope Z_scope.

Lemma elem_concat {A} (before after : list A) l k x : elem l k x -> elem (before ++ l ++ after) (zlen before + k) x.
Proof. intros H. pose proof (IndexProofs.elem_lt _ _ _ H). rewrite !elem_app. right. split; [lia|]. left. now replace (zlen before + k - zlen before) with k by lia. Qed.

Section Coords.
Context {V : Type}.
Implicit Types (ys : list (part V)).
Lemma coordinates_app ys ys' : coordinates (ys ++ ys') = coordinates ys ++ coordinates ys'.
Proof. unfold coordinates. now rewrite map_app, concat_app. Qed.
Lemma coordinates_part before (y : part V) after k v : elem (axis_vals (p_axis y)) k v -> elem (coordinates (before ++ y :: after)) (zlen (coordinates before) + k) v.
Proof. intros H. rewrite coordinates_app. change (coordinates (y :: after)) with (axis_vals (p_axis y) ++ coordinates after). now apply elem_concat. Qed.
Lemma coordinates_find ys : forall i v, elem (coordinates ys) i v ->
  exists before y after k, ys = before ++ y :: after /\ i = zlen (coordinates before) + k /\ elem (axis_vals (p_axis y)) k v.
Proof.
  induction ys as [|y ys IH]; intros i v H.
  - destruct H as [_ H]. destruct (Z.to_nat i); discriminate.
  - change (coordinates (y :: ys)) with (axis_vals (p_axis y) ++ coordinates ys) in H. apply elem_app in H as [H|[Hl H]].
    + exists [], y, ys, i. auto.
    + destruct (IH _ _ H) as (before & w & after & k & -> & E & Hk). exists (y :: before), w, after, k. split; [reflexivity|]. split; [|exact Hk].
      change (coordinates (y :: before)) with (axis_vals (p_axis y) ++ coordinates before). unfold zlen in *. rewrite app_length. lia.
Qed.
Lemma coordinates_perm ys ys' : Permutation ys ys' -> Permutation (coordinates ys) (coordinates ys').
Proof.
  intros H. unfold coordinates. induction H as [|x l l' _ IH|x y l|l l' l'' _ IH1 _ IH2]; cbn.
  - constructor.
  - now apply Permutation_app_head.
  - rewrite !app_assoc. apply Permutation_app_tail. apply Permutation_app_comm.
  - eapply Permutation_trans; eassumption.
Qed.
Lemma parts_length ys : Forall (fun y => zlen (axis_vals (p_axis y)) = axis_len (p_axis y)) ys ->
  fold_right Z.add 0 (map fst (combine (map axis_len (map (fun y => p_axis y) ys)) (map p_data ys))) = zlen (coordinates ys).
Proof.
  induction 1 as [|y ys H _ IH]; [reflexivity|]. cbn [map combine fold_right fst]. rewrite IH, <- H.
  change (coordinates (y :: ys)) with (axis_vals (p_axis y) ++ coordinates ys). unfold zlen. rewrite app_length. lia.
Qed.

(** two parts have no coordinate in common *)
Lemma close_self_Q (v w : Q) : (v == w)%Q -> np_close v w.
Proof.
  intros H. unfold np_close. setoid_replace (v - w)%Q with 0%Q by (rewrite H; unfold Qminus; apply Qplus_opp_r). change (Qabs.Qabs 0) with 0%Q.
  apply Qle_trans with ((1 # 100000000) + 0)%Q; [vm_compute; discriminate|]. apply Qplus_le_compat; [apply Qle_refl|].
  apply Qmult_le_0_compat; [vm_compute; discriminate|apply Qabs.Qabs_nonneg].
Qed.
End Coords.

Lemma separated_differ l : separated l -> values_differ l.
Proof. intros H i j x y Hx Hy E. eapply separated_elem; eauto. now apply close_self_Q. Qed.
Definition has_values (a : axis) : Prop := match a with NonCoord _ => False | _ => True end.
Lemma apart_values axes a : told_apart axes -> In a axes -> has_values a.
Proof. intros [[H _]|(ts & s & -> & _)] Ha; [destruct (H a Ha) as (c & ->); exact Logic.I|]. apply in_map_iff in Ha as (t & <- & _). exact Logic.I. Qed.
Lemma sliced_values a l b : has_values a -> sliced a l b -> axis_vals b = pick 0%Q (axis_vals a) l.
Proof. destruct a, b; cbn [has_values sliced axis_vals]; intros K H; try contradiction; apply H. Qed.
Lemma sliced_elements a l b : has_values a -> good_axis a -> in_range (axis_len a) l -> sliced a l b ->
  forall i j e, elem l i j -> elem (elements a) j e -> elem (elements b) i e.
Proof.
  intros K G Hr Hs i j e Hij He. destruct a as [c|n|t], b as [c'|n'|t']; cbn [has_values sliced elements axis_len] in *; try contradiction.
  - destruct Hs as (_ & _ & _ & _ & -> & _). apply IndexProofs.elem_map in He as (v & Hv & ->). apply IndexProofs.elem_map. exists v. split; [|reflexivity]. apply elem_pick; [exact Hr|]. now exists j.
  - destruct Hs as (_ & _ & _ & _ & _ & -> & _). apply IndexProofs.elem_map in He as (v & Hv & ->). apply IndexProofs.elem_map. exists v. split; [|reflexivity]. apply elem_pick; [exact Hr|]. now exists j.
Qed.
Lemma elements_len a : good_axis a -> zlen (elements a) = axis_len a.
Proof. destruct a; intros G; cbn [elements axis_len]; now rewrite IndexProofs.zlen_map. Qed.
Lemma apart_differ axes : told_apart axes -> values_differ (List.concat (map axis_vals axes)).
Proof.
  intros [[_ H]|(ts & s & -> & _ & _ & _ & H)]; [now apply separated_differ|]. rewrite map_map. exact H.
Qed.
Lemma zclose_rows r : forall q, length r = length q -> Forall (fun x => -99998 <= x <= 99998) q -> forallb (fun '(x, y) => zclose x y) (combine r q) = true -> r = q.
Proof.
  induction r as [|x r IH]; intros [|y q] Hl Hb H; try discriminate; [reflexivity|]. inversion Hb as [|? ? B1 B2]; subst. cbn in H. apply andb_prop in H as [Z1 Z2].
  f_equal; [now apply zclose_eq|]. apply IH; [now injection Hl|exact B2|exact Z2].
Qed.
Lemma project_len k d d' : length (project k d) = length (project k d').
Proof. unfold project. rewrite !app_length. destruct (my k), (mm k), (md k), (mh k), (mmi k), (ms k); reflexivity. Qed.
Lemma apart_not_equivalent before a middle b after : told_apart (before ++ a :: middle ++ b :: after) -> axis_vals a <> [] -> good_axis a -> good_axis b ->
  axis_equivalent a b = false.
Proof.
  intros Hs Hne Ga Gb. apply not_true_is_false. intros H. destruct Hs as [[Hc Hs]|(ts & s & E & Hcount & _ & Hnd & _)].
  - destruct (Hc a) as (c & ->); [apply in_or_app; right; now left|]. destruct (Hc b) as (e & ->); [apply in_or_app; right; right; apply in_or_app; right; now left|]. clear Hc.
    cbn [axis_equivalent] in H. unfold is_equivalent in H.
    assert (allclose (c_vals c) (c_vals e) = true) as Hc.
    { repeat (match type of H with (_ && _ = true) => apply andb_prop in H as [H ?] end). assumption. }
    unfold allclose in Hc. apply andb_prop in Hc as [Hl Hc].
    rewrite !map_app, !concat_app in Hs. cbn [map List.concat axis_vals] in Hs. rewrite map_app, concat_app in Hs. cbn [map List.concat axis_vals] in Hs. cbn [axis_vals] in Hne.
    destruct (c_vals c) as [|v ly] eqn:Ey; [congruence|]. destruct (c_vals e) as [|u lw]; [discriminate|]. cbn in Hc. apply andb_prop in Hc as [Hc _]. apply close_spec in Hc.
    set (B := List.concat (map axis_vals before)) in *. set (M := List.concat (map axis_vals middle)) in *. set (F := List.concat (map axis_vals after)) in *.
    pose proof (elem_concat B (M ++ (u :: lw) ++ F) (v :: ly) 0 v (conj (Z.le_refl 0) eq_refl)) as Y.
    pose proof (elem_concat (B ++ (v :: ly) ++ M) F (u :: lw) 0 u (conj (Z.le_refl 0) eq_refl)) as W. rewrite <- !app_assoc in W.
    apply (Hs _ _ v u Y W); [|exact Hc]. unfold zlen. rewrite !app_length. cbn [length]. lia.
  - symmetry in E. apply map_eq_app in E as (tb & tr & -> & <- & E). apply map_eq_cons in E as (t & tr' & -> & <- & E). apply map_eq_app in E as (tm & tr2 & -> & <- & E). apply map_eq_cons in E as (u & ta & -> & <- & _).
    rewrite Forall_forall in Hcount. assert (t_mask t = t_mask s) as Mt by (apply (Hcount t), in_or_app; right; now left).
    assert (t_mask u = t_mask s) as Mu by (apply (Hcount u), in_or_app; right; right; apply in_or_app; right; now left). clear Hcount.
    cbn [axis_equivalent] in H. apply andb_prop in H as [H Hz]. apply andb_prop in H as [_ Hl]. rewrite Mt in Hz.
    cbn [axis_vals] in Hne. pose proof (time_length t Ga) as Lt. destruct Gb as (_ & _ & _ & _ & _ & Hb). rewrite Mu in Hb.
    rewrite !map_app, !concat_app in Hnd. cbn [map List.concat] in Hnd. rewrite map_app, concat_app in Hnd. cbn [map List.concat] in Hnd.
    unfold records in *. destruct (t_dates t) as [|x dt]; [destruct (t_vals t); [congruence|discriminate]|]. destruct (t_dates u) as [|y du]; [discriminate|].
    cbn [map combine forallb] in Hz. apply andb_prop in Hz as [Hz _]. cbn [map] in Hb. inversion Hb as [|? ? Hby _]; subst.
    apply zclose_rows in Hz; [|apply project_len|exact Hby]. cbn [map app] in Hnd. apply NoDup_remove_2 in Hnd. apply Hnd. rewrite Hz.
    apply in_or_app. right. apply in_or_app. right. apply in_or_app. right. now left.
Qed.


Lemma EValues l : forall m, map EValue l = map EValue m -> l = m.
Proof. induction l as [|x l IH]; intros [|y m] H; try discriminate; [reflexivity|]. injection H as -> H. f_equal. now apply IH. Qed.
Lemma concat_lengths {A B C} (f : A -> option (list B)) (h : A -> list C) xs : (forall a l, In a xs -> f a = Some l -> length l = length (h a)) ->
  forall ls, sequence (map f xs) = Some ls -> length (List.concat ls) = length (List.concat (map h xs)).
Proof.
  induction xs as [|x xs IH]; intros Hf ls H; [now injection H as <-|]. cbn [map sequence] in H. destruct (f x) as [l|] eqn:E; [|discriminate].
  destruct (sequence (map f xs)) as [ls'|] eqn:E'; [|discriminate]. injection H as <-. cbn [map List.concat]. rewrite !app_length. f_equal.
  - apply Hf; [now left|exact E].
  - apply IH; [|reflexivity]. intros a m Ha. apply Hf. now right.
Qed.
Lemma find_key_in {A} k (l : list (Z * A)) v : find_key k l = Some v -> exists kv, In kv l /\ snd kv = v.
Proof. unfold find_key. destruct (find _ l) as [kv|] eqn:E; [|discriminate]. intros [= <-]. apply find_some in E as [E _]. now exists kv. Qed.

(** the axis that is put together can be used if its coordinates can be told apart *)
Lemma whole_good env (Henv : env_ok env) c0 (cs : list coord) : Forall (fun c => tight_axis (Coord c)) (c0 :: cs) ->
  Forall (fun c => prefix (c_class c0) (c_class c) = true /\ may_follow (Coord c0) (Coord c)) cs ->
  separated (List.concat (map c_vals (c0 :: cs))) ->
  exists c, axis_concat env (map Coord (c0 :: cs)) = Some (Coord c) /\ good_axis (Coord c) /\ c_vals c = List.concat (map c_vals (c0 :: cs)).
Proof.
  intros Ht Hf Hs.
  assert (Forall (fun b => prefix (axis_class (Coord c0)) (axis_class b) = true /\ may_follow (Coord c0) b) (map Coord cs)) as Hf' by (apply Forall_map; exact Hf).
  assert (Forall tight_axis (Coord c0 :: map Coord cs)) as Ht' by (change (Coord c0 :: map Coord cs) with (map Coord (c0 :: cs)); apply Forall_map; exact Ht).
  destruct (C28_axis env (Coord c0) (map Coord cs) Hf' Ht') as [H1 H2]. destruct (H2 c0 eq_refl) as (whole & Ew). destruct (H1 whole Ew) as (W1 & _ & _).
  cbn [map]. destruct cs as [|c1 cs].
  - exists c0. split; [reflexivity|]. split; [inversion Ht as [|? ? K _]; subst; apply K|cbn; now rewrite app_nil_r].
  - rewrite Ew. cbn [map] in Ew. unfold axis_concat in Ew. destruct (common_class _) as [cls|] eqn:Ecls; [|discriminate]. cbn [bind] in Ew.
    assert (all_coords (Coord c0 :: Coord c1 :: map Coord cs) = Some (c0 :: c1 :: cs)) as Ea.
    { change (Coord c0 :: Coord c1 :: map Coord cs) with (map Coord (c0 :: c1 :: cs)). generalize (c0 :: c1 :: cs). clear. unfold all_coords. intros l. induction l as [|c l IH]; [reflexivity|]. cbn [map sequence]. now rewrite IH. }
    rewrite Ea in Ew. cbn [bind] in Ew. destruct (find _ _) as [top|]; [|discriminate]. cbn [bind] in Ew. injection Ew as <-. eexists. split; [reflexivity|].
    assert (forall c, In c (c0 :: c1 :: cs) -> Forall (fun kv => length (snd kv) = length (c_vals c)) (c_aux c)) as Haux.
    { intros c Hc. rewrite Forall_forall in Ht. destruct (Ht c Hc) as [(_ & K & _) _]. exact K. }
    split; [|reflexivity]. cbn [good_axis c_vals c_aux c_rtol]. split; [exact Hs|]. split; [|apply (proj2 Henv)].
    apply Forall_forall. intros kv Hin. apply in_flat_map in Hin as (kv0 & _ & Hin). match type of Hin with In _ (match ?t with _ => _ end) => destruct t as [vs|] eqn:Es end; [|contradiction]. destruct Hin as [<-|[]]. cbn [snd].
    change (c_vals c0 ++ c_vals c1 ++ List.concat (map c_vals cs)) with (List.concat (map c_vals (c0 :: c1 :: cs))).
    refine (concat_lengths _ c_vals (c0 :: c1 :: cs) _ vs Es). intros c v Hc Hv. apply find_key_in in Hv as (kv & Hkv & <-). specialize (Haux c Hc). rewrite Forall_forall in Haux. now apply Haux.
Qed.

(** ... and so for time axes *)
Lemma whole_time env s t0 ts : Forall (same_count s) (t0 :: ts) -> Forall (fun t => good_axis (Time t)) (t0 :: ts) -> start_fields (t_mask s) (t_start s) = t_start s ->
  NoDup (List.concat (map (fun t => records (t_mask s) t) (t0 :: ts))) ->
  exists w, axis_concat env (map Time (t0 :: ts)) = Some (Time w) /\ good_axis (Time w) /\ t_vals w = List.concat (map t_vals (t0 :: ts)).
Proof.
  intros Hc Hg Hst Hnd. destruct ts as [|t1 ts]; [exists t0; split; [reflexivity|]; split; [now inversion Hg|cbn; now rewrite app_nil_r]|].
  cbn [map]. unfold axis_concat. change (map axis_class (Time t0 :: Time t1 :: map Time ts)) with (map axis_class (map Time (t0 :: t1 :: ts))).
  set (l := t0 :: t1 :: ts) in *.
  assert (forall t, In t l -> same_count s t) as Hc' by now apply Forall_forall. assert (forall t, In t l -> good_axis (Time t)) as Hg' by now apply Forall_forall.
  destruct (Hc' t0 (or_introl eq_refl)) as (C0 & K0 & S0 & U0 & M0).
  assert (common_class (map axis_class (map Time l)) = Some (t_class t0)) as Ecl.
  { cbn [l map axis_class]. apply common_class_first. change (t_class t0 :: t_class t1 :: map axis_class (map Time ts)) with (map axis_class (map Time l)). rewrite map_map. apply Forall_map, Forall_forall.
    intros t Ht. cbn [axis_class]. destruct (Hc' t Ht) as (Ct & _). rewrite Ct, C0. apply prefix_refl. }
  change (Time t0 :: Time t1 :: map Time ts) with (map Time l). rewrite Ecl. cbn [bind].
  assert (all_times (map Time l) = Some l) as Ea.
  { generalize l. clear. unfold all_times. intros l. induction l as [|t l IH]; [reflexivity|]. cbn [map sequence]. now rewrite IH. }
  rewrite Ea. cbn [bind].
  assert (forall m, (forall t, In t m -> t_mask t = t_mask s) -> fold_left mask_and (map t_mask m) (t_mask s) = t_mask s) as Hm.
  { induction m as [|t m IH]; intros H; [reflexivity|]. cbn [map fold_left]. rewrite (H t (or_introl eq_refl)).
    assert (mask_and (t_mask s) (t_mask s) = t_mask s) as -> by (unfold mask_and; rewrite !andb_diag; destruct (t_mask s); reflexivity). apply IH. intros u Hu. apply H. now right. }
  rewrite M0, Hm by (intros t Ht; apply (Hc' t Ht)).
  assert (mask_eqb (t_mask s) (mkmask false false false false false false) = false) as ->.
  { apply not_true_is_false. intros E. destruct (Hg' t0 (or_introl eq_refl)) as (_ & _ & Hsf & _). apply Hsf. rewrite M0. destruct (t_mask s) as [b1 b2 b3 b4 b5 b6].
    unfold mask_eqb in E. cbn in E. destruct b1, b2, b3, b4, b5, b6; try discriminate. reflexivity. }
  assert (forallb (fun t => if pdate_eq_dec (t_start t) (t_start t0) then true else false) l = true) as ->.
  { apply forallb_forall. intros t Ht. destruct (pdate_eq_dec _ _) as [|N]; [reflexivity|]. exfalso. apply N. destruct (Hc' t Ht) as (_ & _ & St & _). now rewrite St, S0. }
  assert (forallb (fun t => if unit_eq_dec (t_units t) (t_units t0) then true else false) l = true) as ->.
  { apply forallb_forall. intros t Ht. destruct (unit_eq_dec _ _) as [|N]; [reflexivity|]. exfalso. apply N. destruct (Hc' t Ht) as (_ & _ & _ & Ut & _). now rewrite Ut, U0. }
  rewrite S0, Hst, K0, U0. cbn [bind].
  assert (forall m, (forall t, In t m -> In t l) -> sequence (map (axis_value (t_cal s) (t_start s) (t_units s) (t_mask s)) (List.concat (map t_dates m))) = Some (List.concat (map t_vals m)) /\
    map (axis_value (t_cal s) (t_start s) (t_units s) (t_mask s)) (List.concat (map t_dates m)) = map Some (List.concat (map t_vals m))) as Hvals.
  { assert (forall (x : list (option Q)) y, x = map Some y -> sequence x = Some y) as Hsq.
    { intros x y ->. induction y as [|q y IH]; [reflexivity|]. cbn [map sequence]. now rewrite IH. }
    intros m Hm'. enough (map (axis_value (t_cal s) (t_start s) (t_units s) (t_mask s)) (List.concat (map t_dates m)) = map Some (List.concat (map t_vals m))) as E by (split; [now apply Hsq|exact E]).
    induction m as [|t m IH]; [reflexivity|]. cbn [map List.concat]. rewrite !map_app. f_equal; [|apply IH; intros u Hu; apply Hm'; now right].
    pose proof (Hm' t (or_introl eq_refl)) as Ht. destruct (Hg' t Ht) as (_ & _ & _ & E & _). destruct (Hc' t Ht) as (_ & Kt & St & Ut & Mt). rewrite Kt, St, Ut, Mt in E. exact E. }
  destruct (Hvals l (fun t H => H)) as [Hv1 Hv2]. rewrite Hv1. cbn [bind]. eexists. split; [reflexivity|]. split; [|reflexivity].
  destruct (Hg' t0 (or_introl eq_refl)) as (G1 & _ & G3 & _). rewrite K0, S0 in G1. rewrite M0 in G3.
  cbn [good_axis t_cal t_start t_dates t_mask t_units t_vals]. split; [exact G1|]. split; [|split; [exact G3|split; [exact Hv2|]]].
  - apply Forall_forall. intros x Hx. apply in_concat in Hx as (y & Hy & Hx). apply in_map_iff in Hy as (t & <- & Ht). destruct (Hg' t Ht) as (_ & Gd & _). destruct (Hc' t Ht) as (_ & Kt & _). rewrite Kt in Gd.
    rewrite Forall_forall in Gd. now apply Gd.
  - assert (records (t_mask s) (MkTime (t_class t0) (t_cal s) (t_start s) (t_units s) (t_mask s) (List.concat (map t_dates l)) (List.concat (map t_vals l))) = List.concat (map (fun t => records (t_mask s) t) l)) as ->.
    { unfold records. cbn [t_dates]. rewrite concat_map, map_map. reflexivity. }
    split; [exact Hnd|]. apply Forall_forall. intros x Hx. apply in_concat in Hx as (y & Hy & Hx). apply in_map_iff in Hy as (t & <- & Ht).
    destruct (Hg' t Ht) as (_ & _ & _ & _ & _ & Gb). destruct (Hc' t Ht) as (_ & _ & _ & _ & Mt). rewrite Mt in Gb. rewrite Forall_forall in Gb. now apply Gb.
Qed.

Lemma whole_any env (Henv : env_ok env) a0 axes : Forall tight_axis (a0 :: axes) ->
  Forall (fun b => prefix (axis_class a0) (axis_class b) = true /\ may_follow a0 b) axes -> told_apart (a0 :: axes) ->
  exists w, axis_concat env (a0 :: axes) = Some w /\ has_values w /\ good_axis w /\ axis_vals w = List.concat (map axis_vals (a0 :: axes)).
Proof.
  intros Ht Hf [[Hc Hs]|(ts & s & E & Hcount & Hst & Hnd & _)].
  - assert (exists cs, a0 :: axes = map Coord cs) as (cs & E).
    { revert Hc. generalize (a0 :: axes). clear. intros l. induction l as [|a l IH]; intros H; [exists []; reflexivity|]. destruct (H a (or_introl eq_refl)) as (c & ->).
      destruct IH as (cs & ->); [intros b Hb; apply H; now right|]. exists (c :: cs). reflexivity. }
    destruct cs as [|c0 cs]; [discriminate|]. rewrite E in *. injection E as -> ->. rewrite map_map in Hs.
    destruct (whole_good env Henv c0 cs) as (c & E1 & E2 & E3).
    + exact (proj1 (Forall_map _ _ _) Ht).
    + exact (proj1 (Forall_map _ _ _) Hf).
    + exact Hs.
    + exists (Coord c). rewrite map_map. repeat (split; [exact E1 || exact Logic.I || exact E2|]). exact E3.
  - destruct ts as [|t0 ts]; [discriminate|]. rewrite E in *. injection E as -> ->.
    destruct (whole_time env s t0 ts Hcount) as (w & E1 & E2 & E3); [|exact Hst|exact Hnd|].
    + eapply Forall_impl; [|exact (proj1 (Forall_map _ _ _) Ht)]. intros t H; apply H.
    + exists (Time w). rewrite map_map. repeat (split; [exact E1 || exact Logic.I || exact E2|]). exact E3.
Qed.

Lemma Forall2_of_map {A B C} (R : B -> C -> Prop) (f : A -> B) (g : A -> C) l : (forall a, In a l -> R (f a) (g a)) -> Forall2 R (map f l) (map g l).
Proof. induction l as [|a l IH]; intros H; [constructor|]. cbn. constructor; [apply H; now left|]. apply IH. intros b Hb. apply H. now right. Qed.

Section Files.
Context {V : Type} (env : axenv) (Henv : env_ok env) (junk : list Z -> V) (named : list Z) (concat_name : Z).

Lemma concat_parts d (y0 : part V) rest : fit_together env d (y0 :: rest) ->
  exists y D c, concat env junk named concat_name (map p_var (y0 :: rest)) None = Some y /\
    var_axes y = set_at (var_axes (p_var y0)) d c /\ responds env y D /\
    has_values c /\ good_axis c /\ axis_vals c = coordinates (y0 :: rest) /\ elements c = List.concat (map (fun y => elements (p_axis y)) (y0 :: rest)) /\
    forall before w after, y0 :: rest = before ++ w :: after -> forall q k, (d < length q)%nat -> 0 <= k < axis_len (p_axis w) ->
      D (set_at q d (zlen (coordinates before) + k)) = p_data w (set_at q d k).
Proof.
  intros (H1 & H2 & H3). set (ys := y0 :: rest) in *.
  destruct (H1 y0 (or_introl eq_refl)) as (R0 & E0 & T0 & G0 & N0).
  assert (d < length (var_axes (p_var y0)))%nat as Hd by (apply nth_error_Some; congruence).
  destruct rest as [|y1 rest].
  { exists (p_var y0), (p_data y0), (p_axis y0). split; [reflexivity|]. split.
    - symmetry. clear -E0. revert E0. generalize (var_axes (p_var y0)). induction d as [|d IH]; intros [|a l] H; try discriminate; cbn in *; [now injection H as ->|]. f_equal. now apply IH.
    - split; [exact R0|]. split; [apply (apart_values _ _ H3); now left|]. split; [apply T0|]. split; [unfold coordinates; cbn; now rewrite app_nil_r|]. split; [cbn; now rewrite app_nil_r|].
      intros before w after E q k _ _. unfold ys in E. destruct before as [|b before]; [injection E as <- _; reflexivity|]. exfalso. injection E as _ E. destruct before; discriminate. }
  destruct (whole_any env Henv (p_axis y0) (map p_axis (y1 :: rest))) as (c & Ec & Kc & Gc & Vc).
  { change (p_axis y0 :: map p_axis (y1 :: rest)) with (map p_axis ys). apply Forall_map, Forall_forall. intros w Hw. apply (H1 w Hw). }
  { apply Forall_map, Forall_forall. intros w Hw. destruct (H2 y0 w (or_introl eq_refl) (or_intror Hw)) as (M & F & _). split; [|exact F].
    destruct (H1 w (or_intror Hw)) as (_ & Ew & _). exact (proj1 (proj2 M) d _ _ E0 Ew). }
  { exact H3. }
  change (p_axis y0 :: map p_axis (y1 :: rest)) with (map p_axis ys) in Vc. rewrite map_map in Vc. fold (coordinates ys) in Vc.
  assert (elements c = List.concat (map (fun y => elements (p_axis y)) ys)) as Lc.
  { destruct (C28_axis env (p_axis y0) (map p_axis (y1 :: rest))) as [K _]; [| |destruct (K c Ec) as (K' & _); rewrite K'; change (p_axis y0 :: map p_axis (y1 :: rest)) with (map p_axis ys); now rewrite map_map].
    - apply Forall_map, Forall_forall. intros w Hw. destruct (H2 y0 w (or_introl eq_refl) (or_intror Hw)) as (M & F & _). split; [|exact F].
      destruct (H1 w (or_intror Hw)) as (_ & Ew & _). exact (proj1 (proj2 M) d _ _ E0 Ew).
    - change (p_axis y0 :: map p_axis (y1 :: rest)) with (map p_axis ys). apply Forall_map, Forall_forall. intros w Hw. apply (H1 w Hw). }
  destruct (C28_concat env Henv V junk named concat_name (p_var y0) (map p_var (y1 :: rest)) (map p_data ys) d (p_axis y0) (map p_axis (y1 :: rest)) c) as (y & D & K1 & K2 & K3 & K4).
  - change (p_var y0 :: map p_var (y1 :: rest)) with (map p_var ys). apply Forall2_of_map. intros w Hw. apply (H1 w Hw).
  - apply Forall_map, Forall_forall. intros w Hw. apply (H2 y0 w (or_introl eq_refl) (or_intror Hw)).
  - change (p_var y0 :: map p_var (y1 :: rest)) with (map p_var ys). change (p_axis y0 :: map p_axis (y1 :: rest)) with (map p_axis ys).
    apply Forall2_of_map. intros w Hw. apply (H1 w Hw).
  - change (p_axis y0 :: map p_axis (y1 :: rest)) with (map p_axis ys). apply Forall_map, Forall_forall. intros w Hw. apply (H1 w Hw).
  - apply Forall_map, Forall_forall. intros w Hw. apply (H2 y0 w (or_introl eq_refl) (or_intror Hw)).
  - exact Ec.
  - exact Gc.
  - exists y, D, c. split; [|split; [exact K2|split; [exact (proj1 K3)|split; [exact Kc|split; [exact Gc|split; [exact Vc|split; [exact Lc|]]]]]]].
    + unfold ys. cbn [map concat]. change (p_var y1 :: map p_var rest) with (map p_var (y1 :: rest)). rewrite (C28_auto env V junk named concat_name (p_var y0) (map p_var (y1 :: rest)) d); [exact K1|discriminate| |exact Hd| |].
      * apply Forall_map, Forall_forall. intros w Hw. apply (H2 y0 w (or_introl eq_refl) (or_intror Hw)).
      * intros a o Ha Ho b Hb. rewrite map_map in Ho. apply in_map_iff in Ho as (w & <- & Hw). rewrite E0 in Ha. injection Ha as <-.
        destruct (H1 w (or_intror Hw)) as (_ & Ew & _). rewrite Ew in Hb. injection Hb as <-.
        destruct (H1 w (or_intror Hw)) as (_ & _ & Tw & _ & _). apply in_split in Hw as (m & after & Em).
        apply (apart_not_equivalent [] (p_axis y0) (map p_axis m) (p_axis w) (map p_axis after)); [|exact N0|apply T0|apply Tw].
        cbn [app]. change (p_axis w :: map p_axis after) with (map p_axis (w :: after)). rewrite <- map_app, <- Em. exact H3.
      * intros j Hj Hne a o Ha Ho. rewrite map_map in Ho. apply in_map_iff in Ho as (w & <- & Hw). destruct (H2 y0 w (or_introl eq_refl) (or_intror Hw)) as (M & _ & Q).
        destruct (nth_error (var_axes (p_var w)) j) as [b|] eqn:Eb; [|apply nth_error_None in Eb; destruct M as [M _]; lia]. exists b. split; [reflexivity|]. exact (Q j a b Hne Ha Eb).
    + intros before w after E q k Hq Hk. change (p_axis y0 :: map p_axis (y1 :: rest)) with (map p_axis ys) in K4.
      rewrite <- (parts_length before) by (apply Forall_forall; intros u Hu; apply good_len; apply (H1 u); rewrite E; apply in_or_app; now left). change (map (fun y => p_axis y) before) with (map p_axis before). unfold ys in *. rewrite E in K4. rewrite !map_app in K4. cbn [map] in K4.
      assert (forall (B : list (part V)) l l', combine (map axis_len (map p_axis B) ++ l) (map p_data B ++ l') = combine (map axis_len (map p_axis B)) (map p_data B) ++ combine l l') as Hc.
      { intros B l l'. induction B as [|b B IH]; [reflexivity|]. cbn [map app combine]. now rewrite IH. }
      apply (K4 (combine (map axis_len (map p_axis before)) (map p_data before)) (axis_len (p_axis w)) (p_data w)
        (combine (map axis_len (map p_axis after)) (map p_data after))); [|exact Hq|exact Hk].
      rewrite Hc. reflexivity.
Qed.
End Files.

Section Sorting.
Context {V : Type} (env : axenv) (Henv : env_ok env) (junk : list Z -> V).

(** sorting an axis that is in its order already changes nothing *)
Lemma elem_total {A} (l : list A) k : 0 <= k < zlen l -> exists x, elem l k x.
Proof. intros H. unfold zlen in H. destruct (nth_error l (Z.to_nat k)) as [x|] eqn:E; [exists x; split; [lia|exact E]|]. apply nth_error_None in E. lia. Qed.
Lemma sorted_index a r : good_axis a -> (forall i k v w, elem (axis_vals a) i v -> elem (axis_vals a) k w -> i < k -> if r : bool then (w < v)%Q else (v < w)%Q) ->
  sort_index env a (Some r) = arange 0 (axis_len a) 1.
Proof.
  intros G Ho. cbn [sort_index]. destruct (argsort_perm env Henv a r G) as (Hr & Hnd & Hp). pose proof (good_len a G) as Hl.
  apply DsMapProofs.increasing_same.
  - intros i j u v Hu Hv Hlt.
    assert (0 <= u < axis_len a /\ 0 <= v < axis_len a) as [Ru Rv].
    { unfold in_range in Hr. rewrite Forall_forall in Hr. split; apply Hr; eapply elem_In; eassumption. }
    destruct (elem_total (axis_vals a) u) as (x & Hx); [lia|]. destruct (elem_total (axis_vals a) v) as (z & Hz); [lia|].
    pose proof (argsort_sorted env Henv a r i j u v x z Hu Hv Hlt Hx Hz) as Hs.
    destruct (Z.lt_trichotomy u v) as [H|[H|H]]; [exact H| |].
    + exfalso. subst v. destruct Hu as [Hi Hu], Hv as [Hj Hv]. assert (Z.to_nat i = Z.to_nat j) as K; [|lia].
      apply (proj1 (NoDup_nth_error _) Hnd); [apply nth_error_Some; congruence|congruence].
    + exfalso. pose proof (Ho v u z x Hz Hx H) as K. destruct r; eapply Qlt_not_le; eassumption.
  - apply LoopProofs.increasing_arange.
  - intros u. unfold index_permutation in Hp. split; intros H.
    + unfold in_range in Hr. rewrite Forall_forall in Hr. specialize (Hr u H). apply (elem_In _ u). apply elem_arange01. lia.
    + apply In_elem in H as (k & K). assert (u = k) as -> by now apply elem_arange01 in K.
      apply elem_arange01 in K as [_ K]. eapply Permutation_in; [symmetry; exact Hp|]. apply in_map_iff. exists (Z.to_nat k). split; [lia|]. apply in_seq. lia.
Qed.
End Sorting.

Section Opened.
Context {V : Type} (env : axenv) (Henv : env_ok env) (junk : list Z -> V) (named : list Z) (concat_name : Z).

Lemma gather_one inds p d l n : length p = length inds -> nth_error inds d = Some l -> (forall j m, j <> d -> nth_error inds j = Some m -> m = arange 0 (n j) 1) ->
  (forall j, (j < length p)%nat -> j <> d -> 0 <= nth j p 0 < n j) -> gather inds p = set_at p d (znth l (nth d p 0)).
Proof.
  intros Hl Hd Ho Hp. assert (d < length p)%nat as Hdl by (rewrite Hl; apply nth_error_Some; congruence).
  assert (length (gather inds p) = length inds) as HL by (rewrite gather_length; congruence).
  apply (List.nth_ext _ _ 0 0).
  - rewrite HL, ChunkProofs.length_set_at. congruence.
  - intros j Hj. rewrite HL in Hj. destruct (Nat.eq_dec j d) as [->|Hne].
    + rewrite (StencilProofs.nth_gather' inds p d l) by congruence. symmetry. rewrite (ChunkProofs.nth_set_at p d d) by exact Hdl. now rewrite Nat.eqb_refl.
    + destruct (nth_error inds j) as [m|] eqn:Em; [|apply nth_error_None in Em; lia]. rewrite (StencilProofs.nth_gather' inds p j m) by congruence.
      rewrite (Ho j m Hne Em). rewrite (ChunkProofs.nth_set_at p d j) by exact Hdl. destruct (Nat.eqb_spec d j); [congruence|].
      assert (0 <= nth j p 0 < n j) as K by (apply Hp; [congruence|exact Hne]).
      assert (elem (arange 0 (n j) 1) (nth j p 0) (nth j p 0)) as [_ K'] by (apply elem_arange01; lia). unfold znth. now rewrite (nth_error_nth _ _ _ K').
Qed.

Lemma open_parts d reverse order (y0 : part V) rest : fit_together env d (y0 :: rest) -> sorts_along d reverse (y0 :: rest) order ->
  exists z D' b, open_all env junk named concat_name true order (map p_var (y0 :: rest)) = Some z /\ responds env z D' /\
    length (var_axes z) = length (var_axes (p_var y0)) /\ nth_error (var_axes z) d = Some b /\ zlen (axis_vals b) = axis_len b /\ zlen (elements b) = axis_len b /\
    (forall j, j <> d -> nth_error (var_axes z) j = nth_error (var_axes (p_var y0)) j) /\
    Permutation (axis_vals b) (coordinates (y0 :: rest)) /\ in_order reverse (axis_vals b) /\
    (forall w k i v v' e, In w (y0 :: rest) -> elem (axis_vals (p_axis w)) k v -> elem (axis_vals b) i v' -> (v == v')%Q -> elem (elements (p_axis w)) k e -> elem (elements b) i e) /\
    forall w k v v' p, In w (y0 :: rest) -> position (var_shape z) p -> elem (axis_vals (p_axis w)) k v -> elem (axis_vals b) (nth d p 0) v' -> (v == v')%Q ->
      D' p = p_data w (set_at p d k).
Proof.
  intros Hfit [Ho Hso]. destruct (concat_parts env Henv junk named concat_name d y0 rest Hfit) as (y & D & c & E & Eax & Hr & Hkind & Gc & Vc & Lc & HD).
  pose proof Hfit as (H1 & _ & Hsep). destruct (H1 y0 (or_introl eq_refl)) as (_ & E0 & _ & G0 & _). destruct (Hso y0 (or_introl eq_refl)) as [Hlen Hin].
  assert (d < length (var_axes (p_var y0)))%nat as Hd by (apply nth_error_Some; congruence).
  set (A := var_axes (p_var y0)) in *. pose proof (apart_differ _ Hsep) as Hdf. rewrite map_map in Hdf. fold (coordinates (y0 :: rest)) in Hdf. rewrite <- Vc in Hdf.
  assert (length (var_axes y) = length A) as Hl by (rewrite Eax; apply ChunkProofs.length_set_at).
  assert (forall j, nth_error (var_axes y) j = if Nat.eqb d j then Some c else nth_error A j) as Hnth by (intros j; rewrite Eax; apply ViewProofs.nth_error_set_at; exact Hd).
  assert (Forall good_axis (var_axes y)) as Gy.
  { apply Forall_forall. intros a Ha. apply In_nth_error in Ha as (j & Hj). rewrite Hnth in Hj. destruct (Nat.eqb d j); [injection Hj as <-; exact Gc|].
    rewrite Forall_forall in G0. apply G0. eapply nth_error_In; exact Hj. }
  assert (forall j a o, j <> d -> nth_error (var_axes y) j = Some a -> nth_error order j = Some o -> sort_index env a o = arange 0 (axis_len a) 1) as Hident.
  { intros j a [r|] Hne Ha Hor; [|reflexivity]. apply sorted_index; [exact Henv|rewrite Forall_forall in Gy; apply Gy; eapply nth_error_In; exact Ha|].
    rewrite Hnth in Ha. destruct (Nat.eqb_spec d j); [congruence|]. exact (Hin j a r Hne Ha Hor). }
  pose proof (sort_responds env Henv junk y D order Hr Gy ltac:(congruence)) as HS.
  destruct (sort_indices_spec env Henv (var_axes y) order Gy ltac:(congruence)) as (S1 & S2 & S3 & S4). set (inds := sort_indices env (var_axes y) order) in *.
  set (z := sort_var env junk y order) in *.
  assert (length inds = length A) as Hli by (unfold inds, sort_indices; rewrite map_length, combine_length; lia).
  assert (nth_error inds d = Some (axis_argsort env c reverse)) as Hid.
  { unfold inds, sort_indices. rewrite nth_error_map, nth_error_combine, Hnth, Nat.eqb_refl, Ho. reflexivity. }
  assert (var_axes z = map (fun '(a, ind) => axis_take env a ind) (combine (var_axes y) inds)) as Hz by (unfold z, sort_var; cbn [var_axes wrapped]; exact S4).
  set (l := axis_argsort env c reverse) in *.
  destruct (argsort_perm env Henv c reverse Gc) as (L1 & L2 & L3). fold l in L1, L2, L3.
  pose proof (sliced_self env Henv c l Gc L1) as Hsl. remember (axis_take env c l) as b eqn:Eb.
  assert (axis_vals b = pick 0%Q (axis_vals c) l) as Vb by (apply sliced_values; [exact Hkind|exact Hsl]).
  assert (forall k v, elem (axis_vals b) k v <-> exists i, elem l k i /\ elem (axis_vals c) i v) as Hb by (intros k v; rewrite Vb; apply elem_pick; now rewrite (good_len c Gc)).
  exists z, (fun p => D (gather inds p)), b.
  split; [unfold open_all; rewrite E; reflexivity|]. split; [exact HS|]. split; [rewrite Hz, map_length, combine_length; lia|].
  split; [rewrite Hz, nth_error_map, nth_error_combine, Hnth, Nat.eqb_refl, Hid; cbn [option_map]; now rewrite <- Eb|].
  assert (good_axis b) as Gb by (eapply sliced_good; [exact Gc| | |exact Hsl]; assumption).
  split; [now apply good_len|]. split; [now apply elements_len|]. split; [|split; [|split; [|split]]].
  - intros j Hne. rewrite Hz, nth_error_map, nth_error_combine. rewrite Hnth. destruct (Nat.eqb_spec d j); [congruence|].
    destruct (nth_error A j) as [a|] eqn:Ea; [|reflexivity]. destruct (nth_error inds j) as [m|] eqn:Em; [|apply nth_error_None in Em; assert (j < length A)%nat by (apply nth_error_Some; congruence); lia].
    cbn [option_map]. f_equal. assert (nth_error (var_axes y) j = Some a) as Ha by (rewrite Hnth; destruct (Nat.eqb_spec d j); [congruence|exact Ea]).
    unfold inds, sort_indices in Em. rewrite nth_error_map, nth_error_combine, Ha in Em. destruct (nth_error order j) as [o|] eqn:Eo; [|discriminate]. cbn in Em. injection Em as <-.
    rewrite (Hident j a o Hne Ha Eo). apply axis_take_all. rewrite Forall_forall in Gy. apply Gy. eapply nth_error_In; exact Ha.
  - rewrite Vb, <- Vc. unfold index_permutation in L3. unfold pick. eapply Permutation_trans; [apply Permutation_map; exact L3|].
    rewrite map_map. rewrite <- (good_len c Gc). unfold zlen. rewrite Nat2Z.id. erewrite map_ext; [|intros i; rewrite Nat2Z.id; reflexivity].
    replace (map (fun i => nth i (axis_vals c) 0%Q) (seq 0 (length (axis_vals c)))) with (axis_vals c); [reflexivity|].
    clear. generalize (axis_vals c) as m. intros m. induction m as [|x m IH]; [reflexivity|]. cbn [length seq map nth]. f_equal. rewrite <- seq_shift, map_map. exact IH.
  - intros i k v w Hv Hw Hlt. apply Hb in Hv as (i' & Hi & Hv). apply Hb in Hw as (k' & Hk & Hw).
    pose proof (argsort_sorted env Henv c reverse i k i' k' v w Hi Hk Hlt Hv Hw) as K.
    assert (~ (v == w)%Q) as Hne.
    { intros Q. pose proof (Hdf i' k' v w Hv Hw Q) as <-.
      destruct Hi as [Hi0 Hi], Hk as [Hk0 Hk]. assert (Z.to_nat i = Z.to_nat k) as X; [|lia]. apply (proj1 (NoDup_nth_error _) L2); [apply nth_error_Some; congruence|congruence]. }
    destruct reverse; apply Qle_lteq in K as [K|K]; try exact K; exfalso; apply Hne; [now symmetry|exact K].
  - intros w k i v v' e Hw Hk Hv Q He. apply Hb in Hv as (j & Hi & Hv). apply in_split in Hw as (before & after & Ew).
    pose proof (coordinates_part before w after k v Hk) as Hc. rewrite <- Ew, <- Vc in Hc. pose proof (Hdf _ _ _ _ Hc Hv Q) as <-.
    apply (sliced_elements c l b Hkind Gc L1 Hsl _ _ e Hi). rewrite Lc, Ew, map_app, concat_app. cbn [map List.concat].
    replace (zlen (coordinates before)) with (zlen (List.concat (map (fun y => elements (p_axis y)) before))); [now apply elem_concat|].
    assert (Forall (fun u => good_axis (p_axis u)) before) as Hgb by (apply Forall_forall; intros u Hu; apply (H1 u); rewrite Ew; apply in_or_app; now left).
    clear -Hgb. induction Hgb as [|u B G _ IH]; [reflexivity|]. change (coordinates (u :: B)) with (axis_vals (p_axis u) ++ coordinates B). cbn [map List.concat].
    pose proof (elements_len _ G). pose proof (good_len _ G). unfold zlen in *. rewrite !app_length. lia.
  - intros w k v v' p Hw Hp Hk Hv Q. apply Hb in Hv as (i & Hi & Hv). apply in_split in Hw as (before & after & Ew).
    pose proof (coordinates_part before w after k v Hk) as Hc. rewrite <- Ew, <- Vc in Hc.
    pose proof (Hdf _ _ _ _ Hc Hv Q) as <-.
    assert (var_shape z = map axis_len (var_axes y)) as Hsh.
    { unfold var_shape. rewrite Hz. rewrite map_map. clear -S1 S3 Gy Henv. rewrite <- S3. revert Gy. induction S1 as [|a m axs ms H _ IH]; intros Gy; [reflexivity|].
      inversion Gy; subst. cbn [combine map] in *. injection S3 as S3 S4. f_equal; [|now apply IH]. eapply sliced_len; [eassumption|]. now apply sliced_self. }
    rewrite Hsh in Hp. pose proof (Forall2_len _ _ _ Hp) as Hpl. rewrite map_length in Hpl.
    assert (d < length p)%nat as Hdp by lia.
    rewrite (gather_one inds p d l (fun j => match nth_error (var_axes y) j with Some a => axis_len a | None => 0 end)).
    + assert (znth l (nth d p 0) = zlen (coordinates before) + k) as -> by (destruct Hi as [_ Hi]; unfold znth; now apply nth_error_nth).
      apply (HD before w after Ew); [exact Hdp|]. rewrite <- good_len by (apply (H1 w); rewrite Ew; apply in_or_app; right; now left). exact (IndexProofs.elem_lt _ _ _ Hk).
    + congruence.
    + exact Hid.
    + intros j m Hne Hm. unfold inds, sort_indices in Hm. rewrite nth_error_map, nth_error_combine in Hm. destruct (nth_error (var_axes y) j) as [a|] eqn:Ea; [|discriminate].
      destruct (nth_error order j) as [o|] eqn:Eo; [|discriminate]. cbn in Hm. injection Hm as <-. now apply (Hident j a o Hne).
    + intros j Hj Hne. destruct (nth_error (var_axes y) j) as [a|] eqn:Ea; [|apply nth_error_None in Ea; lia].
      destruct (nth_error p j) as [x|] eqn:Ex; [|apply nth_error_None in Ex; lia]. rewrite (nth_error_nth _ _ _ Ex).
      assert (nth_error (map axis_len (var_axes y)) j = Some (axis_len a)) as Em by (rewrite nth_error_map, Ea; reflexivity).
      exact (ViewProofs.Forall2_nth_error _ _ _ _ _ _ Hp Em Ex).
Qed.
End Opened.
