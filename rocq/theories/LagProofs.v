(** Proofs about LagVar. *)
From Coq Require Import ZArith List Bool Lia QArith_base.
From Verif Require Import CalModel CalSpec CalProofs CalPyProofs TimeSearchModel SortSpec IndexModel IndexSpec IndexProofs ArrModel ArrProofs ViewModel ViewSpec ViewProofs ChunkProofs
     AxisModel AxisSpec AxisProofs VarOpsModel VarOpsSpec VarOpsProofs ReduceModel ReduceSpec LoopProofs RespondProofs ArgProofs UfuncView NumModel
     StencilModel StencilSpec StencilProofs DiffProofs IntgrProofs ConcatModel ConcatProofs ConcatVar WindowModel WindowSpec WindowProofs.
Import ListNotations.
Open Scope Z_scope.

Lemma separate_insert axes d a : separate axes -> (d <= length axes)%nat -> (forall b, In b axes -> unrelated a b /\ unrelated b a) -> separate (insert_at axes d a).
Proof.
  intros Hs Hd Ha i j b c Hb Hc Hij. rewrite nth_error_insert_at in Hb, Hc by exact Hd.
  destruct (Nat.ltb_spec i d), (Nat.ltb_spec j d).
  - exact (Hs i j b c Hb Hc Hij).
  - destruct (Nat.eqb_spec j d); [injection Hc as <-; apply Ha; eapply nth_error_In, Hb|]. apply (Hs i (j - 1)%nat b c Hb Hc). lia.
  - destruct (Nat.eqb_spec i d); [injection Hb as <-; apply Ha; eapply nth_error_In, Hc|]. apply (Hs (i - 1)%nat j b c Hb Hc). lia.
  - destruct (Nat.eqb_spec i d), (Nat.eqb_spec j d); try lia.
    + injection Hb as <-. apply Ha. eapply nth_error_In, Hc.
    + injection Hc as <-. apply Ha. eapply nth_error_In, Hb.
    + apply (Hs (i - 1)%nat (j - 1)%nat b c Hb Hc). lia.
Qed.

Lemma zmin_spec l : l <> [] -> exists m, zmin l = Some m /\ In m l /\ forall x, In x l -> m <= x.
Proof.
  destruct l as [|a l]; [congruence|]. intros _. cbn. exists (fold_left Z.min l a). split; [reflexivity|].
  revert a; induction l as [|b l IH]; intros a; cbn [fold_left].
  - split; [now left|]. intros x [<-|[]]. lia.
  - destruct (IH (Z.min a b)) as [H1 H2]. split.
    + destruct H1 as [H1|H1]; [|now right; right]. destruct (Z.min_spec a b) as [[_ E]|[_ E]]; rewrite <- H1, E; [now left|now right; left].
    + intros x [<-|[<-|Hx]]; [| |apply H2; now right]; pose proof (H2 (Z.min a b) (or_introl eq_refl)); lia.
Qed.
Lemma zmax_spec l : l <> [] -> exists m, zmax l = Some m /\ In m l /\ forall x, In x l -> x <= m.
Proof.
  destruct l as [|a l]; [congruence|]. intros _. cbn. exists (fold_left Z.max l a). split; [reflexivity|].
  revert a; induction l as [|b l IH]; intros a; cbn [fold_left].
  - split; [now left|]. intros x [<-|[]]. lia.
  - destruct (IH (Z.max a b)) as [H1 H2]. split.
    + destruct H1 as [H1|H1]; [|now right; right]. destruct (Z.max_spec a b) as [[_ E]|[_ E]]; rewrite <- H1, E; [now right; left|now left].
    + intros x [<-|[<-|Hx]]; [| |apply H2; now right]; pose proof (H2 (Z.max a b) (or_introl eq_refl)); lia.
Qed.

Lemma take_checked_spec {V} (a : arr V) d s n idx F : array_is a s F -> nth_error s d = Some n -> in_range n idx ->
  exists b, take_checked a d idx = Some b /\ array_is b (set_at s d (zlen idx)) (fun p => F (set_at p d (znth idx (nth d p 0)))).
Proof.
  intros Ha Hn Hi. exists (take_axis a d idx). split; [|now apply (take_array s d n)].
  unfold take_checked. destruct Ha as [Hs _]. rewrite Hs, (nth_error_nthZ _ _ _ Hn). cbn [np_index].
  assert (forallb (fun i => (- n <=? i) && (i <? n)) idx = true) as ->.
  { apply forallb_forall. intros i Hin. pose proof (proj1 (Forall_forall _ _) Hi i Hin) as H; cbv beta in H. lia. }
  assert (map (from_end n) idx = idx) as ->; [|reflexivity].
  rewrite <- map_id. apply map_ext_in. intros i Hin. pose proof (proj1 (Forall_forall _ _) Hi i Hin) as H; cbv beta in H. unfold from_end. destruct (Z.ltb_spec i 0); [lia|reflexivity].
Qed.

(** the elements with a valid lag *)
Definition lagged (D : list Z -> num) (d : nat) (N : Z) (lags : list Z) (q : list Z) : num :=
  let t := nth d q 0 + znth lags (nth (S d) q 0) in
  if (0 <=? t) && (t <? N) then D (set_at (remove_at q (S d)) d t) else NaN.

Section Step.
Context (D : list Z -> num) (d : nat) (N imin hi : Z) (L : list (list Z)) (tind li lags : list Z).
Context (Htind : nth_error L d = Some tind) (Hli : nth_error L (S d) = Some li).
Notation Lx := (remove_at L (S d)).
Notation s := (map zlen L).
Context (src : arr num) (Hsrc : array_is src (map zlen (set_at Lx d (arange imin hi 1))) (fun p => D (gather (set_at Lx d (arange imin hi 1)) p))).
Context (Hcover : forall t l, In t tind -> In l (map (znth lags) li) -> 0 <= t + l < N -> imin <= t + l < hi).

Lemma HdL : (S d < length L)%nat.
Proof. apply nth_error_Some. congruence. Qed.
Lemma HdLx : (d < length Lx)%nat.
Proof. rewrite length_remove_at; pose proof HdL; lia. Qed.
Lemma nth_Lx : nth_error Lx d = Some tind.
Proof. rewrite nth_error_remove. destruct (Nat.ltb_spec d (S d)); [exact Htind|lia]. Qed.
Lemma remove_zlen : remove_at s (S d) = map zlen Lx.
Proof. now rewrite remove_at_map. Qed.

Lemma lag_step_spec out i k : shape out = s -> elem (arange 0 (zlen li) 1) k i ->
  exists out', lag_step src d N imin tind (Some out) (i, znth (map (znth lags) li) k) = Some out' /\ shape out' = s /\
    forall p, position s p -> val out' p = if nth (S d) p 0 =? i then lagged D d N lags (gather L p) else val out p.
Proof.
  intros Hout Hk. apply elem_arange1 in Hk as [Hki Hk]. assert (i = k) as -> by lia. clear Hki. rewrite Z.sub_0_r in Hk.
  set (l := znth (map (znth lags) li) k). unfold lag_step. cbn [bind].
  set (valid := fun t => (0 <=? t + l) && (t + l <? N)). set (iv := places valid tind).
  assert (nth_error s d = Some (zlen tind)) as Hs1 by (now rewrite nth_error_map, Htind).
  assert (nth_error s (S d) = Some (zlen li)) as Hs2 by (now rewrite nth_error_map, Hli).
  assert (In l (map (znth lags) li)) as Hin.
  { unfold l. rewrite znth_map by lia. apply in_map. eapply elem_In. apply elem_znth. lia. }
  assert (forall j, 0 <= j < zlen iv -> 0 <= znth iv j < zlen tind /\ valid (znth tind (znth iv j)) = true) as Hiv.
  { intros j Hj. apply places_In. eapply elem_In. apply elem_znth. exact Hj. }
  set (idx := map (fun k0 => znth tind k0 + l - imin) iv).
  assert (forall x, In x iv -> imin <= znth tind x + l < hi) as Hcov.
  { intros x Hx. apply places_In in Hx as [Hx1 Hx2]. unfold valid in Hx2. apply Hcover; [|exact Hin|lia]. eapply elem_In. apply elem_znth. exact Hx1. }
  assert (in_range (hi - imin) idx) as Hidx.
  { apply Forall_forall. intros z Hz. apply in_map_iff in Hz as (x & <- & Hx). specialize (Hcov x Hx). lia. }
  assert (idx <> [] -> zlen (arange imin hi 1) = hi - imin) as Hlen.
  { intros Hne. apply zlen_arange1. destruct idx as [|z idx']; [congruence|]. inversion Hidx; subst. lia. }
  assert (exists n, nth_error (map zlen (set_at Lx d (arange imin hi 1))) d = Some n /\ in_range n idx) as (n & Hn & Hidx').
  { exists (zlen (arange imin hi 1)). split.
    - rewrite nth_error_map, nth_error_set_at by exact HdLx. rewrite Nat.eqb_refl. reflexivity.
    - destruct idx as [|z idx'] eqn:E; [constructor|]. rewrite Hlen by congruence. exact Hidx. }
  destruct (take_checked_spec src d _ n idx _ Hsrc Hn Hidx') as (b & Eb & Hb). rewrite Eb. cbn [bind].
  destruct (put_fst out b d iv k s (zlen tind) (zlen li)
              (fun p => D (set_at (gather Lx p) d (znth tind (znth iv (nth d p 0)) + l)))) as (o1 & E1 & So1 & V1); auto.
  { apply places_NoDup. }
  { apply Forall_forall. intros x Hx. apply places_In in Hx. tauto. }
  { eapply array_is_ext.
    - rewrite map_set_at, set_at_set in Hb. unfold idx in Hb at 1. rewrite zlen_map in Hb. rewrite remove_zlen. exact Hb.
    - intros p Hp. cbv beta. f_equal. rewrite gather_set, gather_set_p, set_at_set. f_equal.
      assert (0 <= nth d p 0 < zlen iv) as Hj.
      { eapply position_at; [exact Hp|]. rewrite remove_zlen, nth_error_set_at, Nat.eqb_refl by (rewrite map_length; exact HdLx). reflexivity. }
      assert (d < length p)%nat as Hdp. { apply Forall2_len in Hp. rewrite <- Hp, length_set_at, remove_zlen, map_length. exact HdLx. }
      rewrite nth_set_same by exact Hdp. unfold idx. rewrite znth_map by exact Hj.
      assert (In (znth iv (nth d p 0)) iv) as HIn by (eapply elem_In, elem_znth, Hj). specialize (Hcov _ HIn).
      rewrite znth_arange1 by lia. lia. }
  rewrite E1. cbn [bind]. unfold put_const. rewrite So1.
  set (iw := places (fun t => negb (valid t)) tind). repeat match goal with |- context [places ?f tind] => change (places f tind) with iw end.
  assert (zlen (map (fun k0 => (k0, k)) iw) = zlen iw) as -> by (unfold zlen; now rewrite map_length).
  destruct (put_fst o1 (Arr (set_at (remove_at s (S d)) d (zlen iw)) (fun _ : list Z => NaN)) d iw k s (zlen tind) (zlen li) (fun _ => NaN)) as (o2 & E2 & So2 & V2); auto.
  { apply places_NoDup. }
  { apply Forall_forall. intros x Hx. apply places_In in Hx. tauto. }
  { split; [reflexivity|]. intros p Hp. reflexivity. }
  exists o2. split; [exact E2|]. split; [exact So2|]. intros p Hp. destruct (V1 p Hp) as [V1a V1b]. destruct (V2 p Hp) as [V2a V2b].
  destruct (Z.eqb_spec (nth (S d) p 0) k) as [Ek|Ek].
  2:{ rewrite V2a by (now left). apply V1a. now left. }
  assert (length p = length L) as Hlp by (apply Forall2_len in Hp; rewrite <- Hp; apply map_length).
  assert (0 <= nth d p 0 < zlen tind) as Hpd by (eapply position_at; [exact Hp|exact Hs1]).
  unfold lagged. rewrite (nth_gather' L p d tind Hlp Htind), (nth_gather' L p (S d) li Hlp Hli), Ek.
  assert (znth lags (znth li k) = l) as -> by (unfold l; rewrite znth_map by lia; reflexivity). cbv zeta.
  change ((0 <=? znth tind (nth d p 0) + l) && (znth tind (nth d p 0) + l <? N)) with (valid (znth tind (nth d p 0))).
  destruct (valid (znth tind (nth d p 0))) eqn:Ev.
  - rewrite V2a. 2:{ right. intros H. apply places_In in H as [_ H]. rewrite Ev in H. discriminate. }
    assert (In (nth d p 0) iv) as HIn by (apply places_In; split; assumption). apply In_elem in HIn as [j Hj].
    rewrite (V1b j Ek Hj). apply znth_elem in Hj as Hj'. pose proof (elem_range _ _ _ Hj) as Hjr.
    assert (d < length (remove_at p (S d)))%nat as Hdr by (rewrite length_remove_at; pose proof HdL; lia).
    rewrite nth_set_same by exact Hdr.
    rewrite Hj'. f_equal. rewrite gather_set_p, set_at_set, gather_remove by exact Hlp. reflexivity.
  - assert (In (nth d p 0) iw) as HIn by (apply places_In; split; [assumption|now rewrite Ev]). apply In_elem in HIn as [j Hj].
    apply (V2b j Ek Hj).
Qed.
End Step.

(** *** the axis of the offsets *)
Lemma offset_one u v : exists d w, option_map get_dates (val_as_date Yearless offset_start u false v) = Some d /\
  axis_value Yearless offset_start u offset_mask d = Some w /\ nearly u v w.
Proof.
  destruct (py_val_date_val_units Yearless offset_start u v) as (p & r & H1 & H2 & H3 & H4 & H5); [split; reflexivity|].
  exists p, r. revert H1. unfold val_as_date. destruct (c_val_as_date _ _ _) as [x|] eqn:Ex; [|discriminate].
  intros H1. assert (x = p) as -> by (destruct x, p; unfold full in H1; cbn in H1; congruence).
  cbn [c_val_as_date] in Ex. unfold val_as_date_yearless in Ex. destruct (_ && _); [|discriminate]. injection Ex as <-.
  split; [reflexivity|]. split; [exact H3|split; assumption].
Qed.
Lemma offset_axis_spec cls u vals : exists t, offset_axis cls u vals = Some (Time t) /\ t_class t = cls /\ t_cal t = Yearless /\ t_start t = offset_start /\
  t_units t = u /\ t_mask t = offset_mask /\ length (t_dates t) = length vals /\ Forall2 (nearly u) vals (t_vals t).
Proof.
  unfold offset_axis.
  assert (exists ds ws, Forall2 (fun v d => option_map get_dates (val_as_date Yearless offset_start u false v) = Some d) vals ds /\
            Forall2 (fun d w => axis_value Yearless offset_start u offset_mask d = Some w) ds ws /\ Forall2 (nearly u) vals ws) as (ds & ws & H1 & H2 & H3).
  { induction vals as [|v vals (ds & ws & I1 & I2 & I3)]; [exists [], []; repeat constructor|].
    destruct (offset_one u v) as (d & w & K1 & K2 & K3). exists (d :: ds), (w :: ws). split; [constructor; assumption|split; constructor; assumption]. }
  assert (sequence (map (fun v => option_map get_dates (val_as_date Yearless offset_start u false v)) vals) = Some ds) as ->.
  { apply sequence_Forall2. exact H1. }
  cbn [bind].
  assert (sequence (map (axis_value Yearless offset_start u offset_mask) ds) = Some ws) as ->.
  { apply sequence_Forall2. exact H2. }
  cbn [bind]. eexists. split; [reflexivity|]. cbn. repeat (split; [reflexivity|]). split; [|exact H3]. symmetry. eapply Forall2_len, H1.
Qed.

(** *** the variable *)
Section Lag.
Context (env : axenv) (Henv : env_ok env) (junk : list Z -> num).
Notation var := (ViewModel.var axis num).

Lemma lag_view_spec (x : var) D d a lag lags L : responds env x D -> nth_error (var_axes x) d = Some a -> axis_len lag = zlen lags ->
  Forall2 selection (insert_at (var_axes x) (S d) lag) L ->
  exists r, lag_view env junk x d (axis_len a) lags (view_of_inds (insert_at (var_axes x) (S d) lag) L) = Some r /\
    array_is r (map zlen L) (fun p => lagged D d (axis_len a) lags (gather L p)).
Proof.
  intros Hx Ha Hlag HL. set (N := axis_len a).
  assert (d < length (var_axes x))%nat as Hd by (apply nth_error_Some; congruence).
  pose proof (Forall2_len _ _ _ HL) as HlenL. rewrite length_insert in HlenL.
  destruct (nth_error L d) as [tind|] eqn:Et; [|apply nth_error_None in Et; lia].
  destruct (nth_error L (S d)) as [li|] eqn:El; [|apply nth_error_None in El; lia].
  assert (selection a tind) as (Ht1 & Ht2 & Ht3).
  { refine (Forall2_nth_error _ _ _ _ _ _ HL _ Et). rewrite nth_error_insert_at by lia. destruct (Nat.ltb_spec d (S d)); [exact Ha|lia]. }
  assert (selection lag li) as (Hl1 & Hl2 & Hl3).
  { refine (Forall2_nth_error _ _ _ _ _ _ HL _ El). rewrite nth_error_insert_at by lia. rewrite Nat.ltb_irrefl, Nat.eqb_refl. reflexivity. }
  unfold lag_view. cbn [vinds view_of_inds]. rewrite (nth_error_nth _ _ [] Et), (nth_error_nth _ _ [] El).
  destruct (zmin_spec (map (znth lags) li)) as (loff & -> & Hlo1 & Hlo2). { destruct li; [congruence|discriminate]. }
  destruct (zmax_spec (map (znth lags) li)) as (roff & -> & Hro1 & Hro2). { destruct li; [congruence|discriminate]. }
  destruct (zmin_spec tind Ht1) as (tmin & -> & Htm1 & Htm2). destruct (zmax_spec tind Ht1) as (tmax & -> & Htx1 & Htx2).
  cbn [bind]. set (imin := Z.max (tmin + loff) 0).
  assert (Forall2 selection (var_axes x) (remove_at L (S d))) as HLx.
  { rewrite <- (remove_insert (var_axes x) (S d) lag) by lia. now apply Forall2_remove. }
  assert (Forall2 (fun a l => in_range (axis_len a) l) (var_axes x) (remove_at L (S d))) as HLr.
  { eapply Forall2_impl; [|exact HLx]. intros b l (_ & H & _). exact H. }
  fold (view_of_inds (insert_at (var_axes x) (S d) lag) L).
  rewrite remove_axis_inds, remove_insert by lia.
  set (hi0 := Z.min (tmax + roff + 1) N). set (hi := if hi0 <? 0 then hi0 + N else hi0).
  assert (0 <= N) as HN by apply axis_len_nonneg.
  assert (in_range N (arange imin hi 1)) as Hrange.
  { apply in_range_arange; unfold imin, hi, hi0; destruct (_ <? _) eqn:E; lia. }
  rewrite (modify_any env junk (var_axes x) (remove_at L (S d)) d _ (arange imin hi 1) a HLr Ha); [|  |exact Hrange].
  2:{ cbn [expand]. destruct (Z.ltb_spec imin 0); [unfold imin in *; lia|]. reflexivity. }
  cbn [bind].
  destruct (own_get env Henv junk x D (set_at (remove_at L (S d)) d (arange imin hi 1)) Hx) as (src & -> & Hsrc).
  { apply Forall2_set.
    - eapply Forall2_impl; [|exact HLx]. intros b l (_ & H1 & H2). split; assumption.
    - intros b Hb. assert (b = a) as -> by congruence. split; [exact Hrange|]. intros k1 k2 u1 u2 Hu1 Hu2. apply elem_arange1 in Hu1, Hu2. lia. }
  cbn [bind].
  set (G := fun (_ : Z) (p : list Z) (_ : num) => lagged D d N lags (gather L p)).
  destruct (fold_columns (lag_step src d N imin tind) (S d) (map zlen L) G (combine (arange 0 (zlen (map (znth lags) li)) 1) (map (znth lags) li)) (Arr (vshape (view_of_inds (insert_at (var_axes x) (S d) lag) L)) junk)) as (out & E & So & Vo).
  - reflexivity.
  - assert (forall (A B : Type) (l : list A) (m : list B), length l = length m -> map fst (combine l m) = l) as HH
      by (induction l; intros [|? ?] E; cbn in *; try lia; [reflexivity|f_equal; auto]).
    rewrite HH; [apply NoDup_arange1|]. apply Nat2Z.inj. change (Z.of_nat (length ?l)) with (zlen l). fold (zlen (arange 0 (zlen (map (znth lags) li)) 1)). fold (zlen (map (znth lags) li)). rewrite zlen_arange1; [lia|]. unfold zlen; lia.
  - intros out it Hin Hs. apply In_nth_error in Hin as [k Hk]. rewrite nth_error_combine in Hk.
    destruct (nth_error (arange 0 (zlen (map (znth lags) li)) 1) k) as [i|] eqn:Ei; [|discriminate].
    destruct (nth_error (map (znth lags) li) k) as [l|] eqn:Ell; [|discriminate]. injection Hk as <-.
    rewrite zlen_map in Ei.
    assert (elem (arange 0 (zlen li) 1) (Z.of_nat k) i) as Hel by (split; [lia|]; now rewrite Nat2Z.id).
    assert (l = znth (map (znth lags) li) (Z.of_nat k)) as ->. { symmetry. apply znth_elem. split; [lia|]. now rewrite Nat2Z.id. }
    destruct (lag_step_spec D d N imin hi L tind li lags Et El src Hsrc) with (out := out) (i := i) (k := Z.of_nat k) as (o & H1 & H2 & H3); auto.
    { intros t l Ht Hl Htl. specialize (Htm2 t Ht). specialize (Htx2 t Ht). specialize (Hlo2 l Hl). specialize (Hro2 l Hl).
      unfold imin, hi, hi0. destruct (Z.ltb_spec (Z.min (tmax + roff + 1) N) 0); lia. }
    exists o. split; [exact H1|]. split; [exact H2|exact H3].
  - exists out. split; [exact E|]. split; [exact So|]. intros p Hp. destruct (Vo p Hp) as [V1 _].
    assert (0 <= nth (S d) p 0 < zlen li) as Hpl by (eapply position_at; [exact Hp|]; rewrite nth_error_map, El; reflexivity).
    apply (V1 (nth (S d) p 0, znth (map (znth lags) li) (nth (S d) p 0))); [|reflexivity].
    apply nth_error_In with (n := Z.to_nat (nth (S d) p 0)). rewrite nth_error_combine.
    assert (elem (arange 0 (zlen (map (znth lags) li)) 1) (nth (S d) p 0) (nth (S d) p 0)) as [_ K1].
    { apply elem_arange1. rewrite zlen_map. lia. }
    assert (elem (map (znth lags) li) (nth (S d) p 0) (znth (map (znth lags) li) (nth (S d) p 0))) as [_ K2].
    { apply elem_znth. now rewrite zlen_map. }
    rewrite K1, K2. reflexivity.
Qed.

Theorem lag_spec lag_class (x : var) D d t v0 v1 vs lags (reverse : bool) : responds env x D -> nth_error (var_axes x) d = Some (Time t) ->
  t_vals t = v0 :: v1 :: vs ->
  (forall s b, t_class s = lag_class -> In b (var_axes x) -> unrelated (Time s) b /\ unrelated b (Time s)) ->
  let delt := (if reverse then - (v1 - v0) else v1 - v0)%Q in
  let used := if reverse then rev lags else lags in
  exists y s, lag_var env junk lag_class x d lags reverse = Some y /\ var_axes y = insert_at (var_axes x) (S d) (Time s) /\
    t_class s = lag_class /\ t_cal s = Yearless /\ t_units s = t_units t /\ t_mask s = offset_mask /\
    Forall2 (fun l w => nearly (t_units t) (delt * inject_Z l) w) used (t_vals s) /\
    axis_len (Time s) = zlen lags /\
    responds env y (lagged D d (axis_len (Time t)) used).
Proof.
  intros Hx Ha Hv Hun delt used. unfold lag_var. rewrite Ha. cbn [bind]. rewrite Hv. fold delt. fold used.
  destruct (offset_axis_spec lag_class (t_units t) (map (fun l => delt * inject_Z l)%Q used)) as (s & Es & H1 & H2 & H3 & H4 & H5 & H6 & H7).
  rewrite Es. cbn [bind]. eexists _, s. split; [reflexivity|]. split; [reflexivity|].
  assert (axis_len (Time s) = zlen used) as Hlen. { unfold axis_len, zlen. rewrite H6, map_length. reflexivity. }
  repeat (split; [assumption|]). split; [|split].
  - exact (proj1 (Forall2_map_l _ _ _ _) H7).
  - rewrite Hlen. unfold used. destruct reverse; [|reflexivity]. unfold zlen. now rewrite rev_length.
  - split; cbn [var_axes var_source].
    + apply separate_insert; [apply Hx|assert (d < length (var_axes x))%nat by (apply nth_error_Some; congruence); lia|]. intros b Hb. now apply Hun.
    + intros L HL. apply (lag_view_spec x D d (Time t) (Time s) used L); auto.
Qed.
End Lag.
