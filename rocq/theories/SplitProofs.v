(** Lemmas for splitting time axes. *)
From Coq Require Import ZArith List Bool Lia ZifyBool Permutation QArith_base Qround.
From Verif Require Import CalModel CalSpec CalProofs TimeSearchModel TimeSearchSpec TimeSearchProofs TimeMapProofs TimeDateProofs SortSpec IndexModel IndexSpec IndexProofs ArrModel ArrProofs
  ViewModel ViewSpec ViewProofs AxisModel AxisSpec AxisProofs VarOpsModel VarOpsSpec VarOpsProofs NumModel NumProofs ReduceModel ReduceSpec ArgProofs StencilModel StencilSpec StencilProofs IntgrProofs
  RespondProofs ChunkProofs LoopProofs BlockProofs FlattenProofs InterpView SmoothModel SmoothView WindowModel WindowProofs CompositeProofs ConcatModel ConcatSpec ConcatProofs ConcatAxis ConcatVar ClimModel ClimSpec ClimSum ClimAxis ClimChunk ClimView
  MultiFileRead TickMonth SplitModel.
Import ListNotations.
Open Scope Z_scope.
Notation zlen := IndexSpec.zlen.
Notation znth := ArrModel.znth.

(** *** lists in two directions *)
Definition grid {X Y} (ys : list Y) (ds : list X) (g : Y -> X -> X) : list X := List.concat (map (fun y => map (g y) ds) ys).
Lemma grid_len {X Y} (ys : list Y) (ds : list X) g : zlen (grid ys ds g) = zlen ys * zlen ds.
Proof. unfold grid. induction ys as [|y ys IH]; [reflexivity|]. cbn [map List.concat]. unfold zlen in *. rewrite app_length, map_length. cbn [length]. lia. Qed.
Lemma grid_nth {X Y} (ds : list X) g : forall (ys : list Y) i j y d, nth_error ys i = Some y -> nth_error ds j = Some d -> nth_error (grid ys ds g) (i * length ds + j) = Some (g y d).
Proof.
  unfold grid. induction ys as [|z ys IH]; intros [|i] j y d Hy Hd; cbn [nth_error] in Hy; try discriminate; cbn [map List.concat].
  - injection Hy as ->. rewrite nth_error_app1 by (rewrite map_length; apply nth_error_Some; cbn; congruence). cbn [Nat.mul Nat.add]. rewrite nth_error_map, Hd. reflexivity.
  - rewrite nth_error_app2 by (rewrite map_length; cbn; lia). rewrite map_length. replace (S i * length ds + j - length ds)%nat with (i * length ds + j)%nat by (cbn; lia). apply IH; assumption.
Qed.
Lemma grid_elem {X Y} (ds : list X) g (ys : list Y) i j y d : elem ys i y -> elem ds j d -> elem (grid ys ds g) (i * zlen ds + j) (g y d).
Proof.
  intros [Hi Ey] [Hj Ed]. split; [unfold zlen; nia|]. rewrite <- (grid_nth ds g ys _ _ y d Ey Ed). f_equal. unfold zlen. nia.
Qed.
Lemma grid_NoDup {X Y Z} (f : X -> Z) (h : Y -> Z -> Z) (g : Y -> X -> X) (ys : list Y) (ds : list X) :
  (forall y d, f (g y d) = h y (f d)) -> (forall y y' z z', h y z = h y' z' -> y = y' /\ z = z') -> NoDup ys -> NoDup (map f ds) -> NoDup (map f (grid ys ds g)).
Proof.
  intros Hf Hh Hy Hd. unfold grid. induction Hy as [|y ys Hn Hy IH]; [constructor|]. cbn [map List.concat]. rewrite map_app, map_map. rewrite (map_ext _ _ (Hf y)), <- (map_map f (h y)). apply NoDup_app2; [|exact IH|].
  - apply FinFun.Injective_map_NoDup; [|exact Hd]. intros a b E. now apply Hh in E.
  - intros z Hz Hz'. apply in_map_iff in Hz as (w & <- & Hw). apply in_map_iff in Hz' as (x & Ex & Hx). apply in_concat in Hx as (l & Hl & Hx). apply in_map_iff in Hl as (y' & <- & Hy'). apply in_map_iff in Hx as (d & <- & Hd').
    rewrite Hf in Ex. apply Hh in Ex as [-> _]. contradiction.
Qed.

(** *** years and the rest *)
Lemma with_without k : my k = true -> with_years (without_year k) = k.
Proof. destruct k; cbn. intros ->. reflexivity. Qed.
Lemma without_with k : my k = false -> without_year (with_years k) = k.
Proof. destruct k; cbn. intros ->. reflexivity. Qed.
Lemma project_in_year k y d : project (with_years k) (in_year y d) = y :: project (without_year k) d.
Proof. reflexivity. Qed.
Lemma project_year k d : my k = true -> project k d = year d :: project (without_year k) d.
Proof. destruct k; cbn. intros ->. reflexivity. Qed.
Lemma sequence_Some_map {X Y} (f : X -> option Y) (g : X -> Y) l : (forall x, In x l -> f x = Some (g x)) -> sequence (map f l) = Some (map g l).
Proof. intros H. induction l as [|x l IH]; [reflexivity|]. cbn [map sequence]. rewrite (H x (or_introl eq_refl)), IH by (intros; apply H; now right). reflexivity. Qed.

Lemma masked_start c k d : c <> Yearless -> 1 <= month d <= 12 -> good_start c (get_dates (mask_date k d)).
Proof. intros Hc Hm. unfold get_dates, mask_date. cbn [pmonth pyear]. destruct c; cbn [good_start month]; try contradiction; auto; destruct (mm k); cbn; lia. Qed.
Lemma jointime_spec years days : years <> [] -> t_dates days <> [] -> t_cal days <> Yearless -> Forall (fun d => 1 <= month d <= 12) (t_dates days) ->
  exists u, jointime years days = Some u /\ t_class u = t_class days /\ t_cal u = t_cal days /\ t_units u = t_units days /\ t_mask u = with_years (t_mask days) /\
    t_dates u = grid (map Qfloor years) (t_dates days) in_year /\ good_start (t_cal u) (get_dates (t_start u)) /\
    map (axis_value (t_cal u) (t_start u) (t_units u) (t_mask u)) (t_dates u) = map Some (t_vals u).
Proof.
  intros Hy Hd Hc Hm. unfold jointime. set (ds := List.concat _). assert (ds = grid (map Qfloor years) (t_dates days) in_year) as E by (unfold ds, grid; now rewrite map_map).
  destruct (hd_error ds) as [d0|] eqn:E0.
  2:{ exfalso. destruct years as [|y ys]; [congruence|]. destruct (t_dates days) as [|d l] eqn:Ed; [congruence|]. unfold ds in E0. discriminate E0. }
  cbn [bind]. assert (1 <= month d0 <= 12) as H0.
  { assert (In d0 ds) as H by (destruct ds; [discriminate|injection E0 as ->; now left]). apply in_concat in H as (l & H1 & H2). apply in_map_iff in H1 as (y & <- & _). apply in_map_iff in H2 as (d & <- & H2). cbn. apply (proj1 (Forall_forall _ _) Hm d H2). }
  pose proof (masked_start (t_cal days) (with_years (t_mask days)) d0 Hc H0) as Hs.
  assert (exists vals, map (axis_value (t_cal days) (mask_date (with_years (t_mask days)) d0) (t_units days) (with_years (t_mask days))) ds = map Some vals) as (vals & Ev).
  { exists (map (fun d => match axis_value (t_cal days) (mask_date (with_years (t_mask days)) d0) (t_units days) (with_years (t_mask days)) d with Some v => v | None => 0%Q end) ds).
    rewrite map_map. apply map_ext. intros d. unfold axis_value. rewrite (dav_any _ _ _ Hs Hc). reflexivity. }
  rewrite Ev, sequence_Some. cbn [bind]. eexists. split; [reflexivity|]. cbn. repeat split; try assumption. 
Qed.

(** *** reading one's own axes, in any order *)
Lemma NoDup_various l : NoDup l -> l <> [] -> various l.
Proof.
  intros Hn Hne. destruct l as [|a [|b l]]; [congruence|left; reflexivity|]. right. exists a, b. split; [now left|]. split; [now right; left|]. inversion Hn as [|? ? H _]. intros ->. apply H. now left.
Qed.
Lemma own_get_any env (Henv : env_ok env) (junk : list Z -> num) x D L : responds env x D -> Forall2 (fun a l => in_range (axis_len a) l /\ NoDup l) (var_axes x) L ->
  exists r, ViewModel.get (axis_ops env) junk (view_of_inds (var_axes x) L) x true true = Some r /\ array_is r (map zlen L) (fun p => D (gather L p)).
Proof.
  intros Hx HL. destruct (existsb (Z.eqb 0) (map zlen L)) eqn:E0.
  - apply (get_own_empty (axis_ops env) junk x D L); [|eapply Forall2_impl; [|exact HL]; intros a l [H _]; exact H|exact E0].
    intros i j a b Ha Hb. split.
    + intros H. destruct (Nat.eq_dec i j) as [|Hne]; [assumption|]. rewrite unrelated_same in H; [discriminate|]. destruct Hx as [Hsep _]. eapply Hsep; eassumption.
    + intros ->. rewrite Ha in Hb. injection Hb as <-. apply same_refl.
  - apply (responds_delivers env Henv junk x D Hx). apply Forall2_intro_nth; [eapply Forall2_len, HL|]. intros i a l Ha Hl.
    pose proof (Forall2_nth_error _ _ _ _ _ _ HL Ha Hl) as [H1 H2]. split; [exact H1|]. apply NoDup_various; [exact H2|].
    intros ->. apply not_true_iff_false in E0. apply E0. apply existsb_exists. exists 0. split; [|reflexivity].
    apply in_map_iff. exists []. split; [reflexivity|]. eapply nth_error_In, Hl.
Qed.

Lemma reshape_split {V} (r : arr V) s d a b F : (d < length s)%nat -> array_is r (set_at s d (a * b)) F ->
  exists c, reshape r (insert_at (set_at s d a) (S d) b) = Some c /\
    array_is c (insert_at (set_at s d a) (S d) b) (fun p => F (set_at (remove_at p (S d)) d (nth d p 0 * b + nth (S d) p 0))).
Proof.
  intros Hd [Hs Hv]. unfold reshape. rewrite Hs, prod_merge, Z.eqb_refl by exact Hd. eexists. split; [reflexivity|]. split; [reflexivity|].
  intros p Hp. cbn [val]. set (q := remove_at p (S d)).
  assert (length p = S (length s)) as Hl by (apply Forall2_len in Hp; rewrite length_insert, length_set_at in Hp; lia).
  assert (length q = length s) as Hlq by (unfold q; rewrite length_remove_at; lia).
  assert (nth_error p (S d) = Some (nth (S d) p 0)) as E1 by (apply nth_error_nth'; lia).
  assert (nth_error q d = Some (nth d p 0)) as E2.
  { unfold q. rewrite nth_error_remove. destruct (Nat.ltb_spec d (S d)); [|lia]. apply nth_error_nth'. lia. }
  assert (0 <= nth d p 0 < a) as Ha. { eapply position_at; [exact Hp|]. rewrite nth_error_insert_at by (rewrite length_set_at; lia). destruct (Nat.ltb_spec d (S d)); [|lia]. rewrite nth_error_set_at, Nat.eqb_refl by exact Hd. reflexivity. }
  assert (0 <= nth (S d) p 0 < b) as Hb. { eapply position_at; [exact Hp|]. rewrite nth_error_insert_at by (rewrite length_set_at; lia). rewrite Nat.eqb_refl. destruct (Nat.ltb_spec (S d) (S d)); [lia|]. reflexivity. }
  assert (position (set_at s d (a * b)) (set_at q d (nth d p 0 * b + nth (S d) p 0))) as Hq.
  { apply (position_remove _ _ (S d)) in Hp. rewrite remove_insert in Hp by (rewrite length_set_at; lia). apply (Forall2_set_both _ _ _ d (a * b) (nth d p 0 * b + nth (S d) p 0)) in Hp.
    - rewrite set_at_set in Hp. exact Hp.
    - nia. }
  rewrite <- (Hv _ Hq). f_equal. rewrite <- (unravel_ravel _ _ Hq). f_equal. rewrite <- ravel_merge by (assumption || lia). f_equal. unfold q at 1.
  rewrite <- (insert_remove p (S d) _ E1) at 1. f_equal. symmetry. apply set_at_nth. exact E2.
Qed.

(** *** the axis of the years *)
Lemma years_separated l : NoDup l -> Forall (fun x => -99998 <= x <= 99998) l -> separated (map inject_Z l).
Proof.
  intros Hn Hb i j x y Hx Hy Hij Hc. apply elem_map in Hx as (a & Ha & ->). apply elem_map in Hy as (b & Hb' & ->).
  assert (a <> b) as Hab. { intros ->. apply Hij. destruct Ha as [Ha1 Ha2], Hb' as [Hb1 Hb2]. assert (Z.to_nat i = Z.to_nat j) as E; [|lia]. apply (proj1 (NoDup_nth_error l) Hn); [apply nth_error_Some; congruence|]. congruence. }
  pose proof (proj1 (Forall_forall _ _) Hb b (elem_In _ _ _ Hb')) as Bb. cbv beta in Bb.
  unfold np_close in Hc. unfold Qminus in Hc. rewrite <- inject_Z_opp, <- inject_Z_plus in Hc. change (Qabs.Qabs (inject_Z ?z)) with (inject_Z (Z.abs z)) in Hc.
  unfold Qle, Qplus, Qmult, inject_Z in Hc. cbn [Qnum Qden] in Hc. lia.
Qed.
