(** The sums over the differences of two variables. *)
From Coq Require Import ZArith List Bool Lia QArith_base Qcanon Permutation.
From Verif Require Import SortSpec IndexModel IndexSpec IndexProofs ArrModel ArrProofs ViewModel ViewSpec ViewProofs FibreProofs
     AxisModel AxisSpec AxisProofs VarOpsModel VarOpsSpec VarOpsProofs NumModel NumProofs ReduceModel ReduceSpec ReduceProofs ReduceKinds StatProofs RespondProofs LoopProofs BlockProofs
     UfuncModel UfuncSpec UfuncProofs UfuncView RegressModel RegressSpec RegressAxes RegressSums RegressProofs MeansModel MeansSpec MeansProofs.
From Verif Require UfuncProps IntgrProofs.
Import ListNotations.
Open Scope Z_scope.
Open Scope list_scope.

Section Sums.
Context (env : axenv) (Henv : env_ok env) (MAX : Z) (HMAX : 1 <= MAX) (junk : list Z -> num) (X Y : var axis num) (DX DY : list Z -> num)
  (HX : responds env X DX) (HY : responds env Y DY) (Hfit : fitting X Y) (src : list axis).
Notation All := (var_axes X ++ var_axes Y).
Context (Hsep : separate src) (Hincl : incl src All) (jx jy : list (nat * list Z))
  (Hjx : Forall2 (located src) (var_axes X) jx) (Hnx : NoDup (map fst jx)) (Hjy : Forall2 (located src) (var_axes Y) jy) (Hny : NoDup (map fst jy))
  (ix : list nat) (Hnd : NoDup ix) (Hlt : Forall (fun i => (i < length src)%nat) ix).
Notation E1 := (derived_data DX jx).
Notation E2 := (derived_data DY jy).

Lemma block_spec c : Forall2 selection src c -> exists data d,
  sequence (map (fun x => get (axis_ops env) junk (view_of_inds src c) x true true) [X; Y]) = Some data /\
  apply_op (fun l => match l with [a; b] => sub a b | _ => NaN end) (map Array data) = Some d /\
  array_is d (map zlen c) (fun p => sub (E1 (gather c p)) (E2 (gather c p))).
Proof.
  intros Hc. destruct (get_located env Henv junk src c X DX jx HX Hc Hjx Hnx) as (rx & Ex & Hrx). destruct (get_located env Henv junk src c Y DY jy HY Hc Hjy Hny) as (ry & Ey & Hry).
  pose proof (located_value junk src c X DX jx rx Hc Hjx Hrx) as Vx. pose proof (located_value junk src c Y DY jy ry Hc Hjy Hry) as Vy.
  exists [rx; ry]. cbn [map sequence]. rewrite Ex, Ey.
  destruct (apply_op_spec (fun l => match l with [a; b] => sub a b | _ => NaN end) (map zlen c) c [E1; E2] [Array rx; Array ry]) as (r & Er & Hr).
  { constructor; [exact Vx|constructor; [exact Vy|constructor]]. }
  { cbn [flat_map app]. apply bcast_shapes_full; [discriminate| |].
    - constructor; [exact (proj1 Vx)|constructor; [exact (proj1 Vy)|constructor]].
    - intros i n Hn. assert (exists b, nth_error src i = Some b) as (b & Hb).
      { destruct (nth_error src i) eqn:E; [eauto|]. apply nth_error_None in E. assert (i < length (map zlen c))%nat as Hl by (apply nth_error_Some; congruence).
        rewrite map_length, <- (Forall2_len _ _ _ Hc) in Hl. lia. }
      pose proof (Hincl b (nth_error_In _ _ Hb)) as Hba. apply in_app_iff in Hba as [Hba|Hba].
      + exists (shape rx). split; [now left|]. rewrite (proj1 Hrx). apply nth_outshape; [exact Hn|]. exact (located_own src _ jx i b Hsep Hjx Hb Hba).
      + exists (shape ry). split; [right; now left|]. rewrite (proj1 Hry). apply nth_outshape; [exact Hn|]. exact (located_own src _ jy i b Hsep Hjy Hb Hba). }
  exists r. split; [reflexivity|]. split; [exact Er|]. destruct Hr as [Sr Hr]. split; [exact Sr|]. intros p Hp. rewrite (Hr p Hp). reflexivity.
Qed.

Notation K := (kept_axes src ix).
Notation G := (gone_axes (length src) ix).
Lemma difference_sum_spec pre : exists r, difference_sum env junk MAX X Y src ix K pre = Some r /\ shape r = map axis_len K /\
  forall k, position (map axis_len K) k ->
    let l := map (fun q => pre (sub (E1 q) (E2 q))) (fibre G (map axis_len src) k) in summable l -> l <> [] -> val r k = np_nansum l.
Proof.
  destruct Hfit as [Hf1 _].
  assert (Forall good_axis src) as Hg by (apply Forall_forall; intros a Ha; exact (proj1 (proj1 (Hf1 a (Hincl a Ha))))).
  assert (forall a, In a src -> 0 < axis_len a) as Hp by (intros a Ha; exact (proj2 (Hf1 a (Hincl a Ha)))).
  assert (forall a, In a K -> 0 < axis_len a) as HK by (intros a Ha; apply Hp; rewrite kept_dropped in Ha; eapply dropped_incl, Ha).
  destruct (aranges_selection K HK) as [HL EL]. set (h := fun q => pre (sub (E1 q) (E2 q))).
  destruct (accumulate_view env Henv junk MAX HMAX src Hsep Hg ix (fun i a _ Ha => Hp a (nth_error_In _ _ Ha))
     (fun l w => Onan (map h l) w) (fun l b => Rnan (map h l) b) NaN (fun o b => np_nansum [o; b]) [X; Y]
     (fun data => match apply_op (fun l => match l with [a; b] => sub a b | _ => NaN end) (map Array data) with
                   | Some d => Some (np_reduce np_nansum (map_arr pre d) ix) | None => None end))
    with (L := map (fun a => arange 0 (axis_len a) 1) K) as (r & Er & Sr & Vr).
  - intros l l' w P. apply Onan_perm. now apply Permutation_map.
  - apply Onan_init.
  - intros l1 w l2 b H1 H2 H3. rewrite map_app. apply Onan_comb; [exact H1| |exact H3]. destruct l2; [congruence|discriminate].
  - intros c Hc. destruct (block_spec c Hc) as (data & d & Hd & Ha & Hda).
    destruct (block_reduced junk (Var src (Values (Arr [] junk))) ix Hnd Hlt np_nansum h (map_arr pre d) Rnan c Rnan_one Rnan_cat Hc) as (b' & Hb1 & Hb2).
    { exact (map_arr_spec pre d (map zlen c) _ Hda). }
    exists data. eexists. exists b'. split; [exact Hd|]. split; [rewrite Ha; reflexivity|]. split; [exact Hb1|]. exact Hb2.
  - exact HL.
  - exists r. unfold difference_sum. rewrite full_view_eq. split; [exact Er|]. rewrite EL in *. split; [exact Sr|]. intros k Hk. remember (map h (fibre G (map axis_len src) k)) as l eqn:El. intros Hs Hne'. specialize (Vr k Hk).
    rewrite (gather_axis_aranges (V:=num) junk K k Hk) in Vr. change (Onan (map h (fibre G (map axis_len src) k)) (val r k)) in Vr. rewrite <- El in Vr. destruct (Vr Hs) as [V1 V2].
    rewrite <- V1. symmetry. apply n2z_id. now apply V2.
Qed.

Context (HXi : no_infinities X DX) (HYi : no_infinities Y DY) (Hne : ix <> []).
Lemma fibre_positions k q : position (map axis_len K) k -> In q (fibre G (map axis_len src) k) -> position (map axis_len src) q.
Proof.
  intros Hk Hq. rewrite kept_dropped, <- dropped_map in Hk. rewrite fibre_fibl in Hq; [|rewrite length_gone, map_length; reflexivity|exact Hk].
  eapply ReduceProofs.fibl_positions; [|exact Hk|exact Hq]. now rewrite length_gone, map_length.
Qed.
Lemma fibre_some k : position (map axis_len K) k -> fibre G (map axis_len src) k <> [].
Proof.
  intros Hk. rewrite kept_dropped, <- dropped_map in Hk. rewrite fibre_fibl; [|rewrite length_gone, map_length; reflexivity|exact Hk]. apply fibl_ne.
  - apply Forall_forall. intros l Hl. rewrite map_map in Hl. apply in_map_iff in Hl as (a & <- & Ha). destruct Hfit as [Hf1 _]. destruct (Hf1 a (Hincl a Ha)) as [_ Hpos].
    intros E. pose proof (zlen_arange (axis_len a) ltac:(lia)) as Kz. rewrite E in Kz. cbn in Kz. lia.
  - now rewrite length_gone, !map_length.
  - rewrite !dropped_map. rewrite dropped_map in Hk. rewrite !map_length. symmetry. pose proof (Forall2_len _ _ _ Hk) as Kl. rewrite !map_length in Kl. exact Kl.
Qed.
Lemma there_at x D js q : Forall2 (located src) (var_axes x) js -> position (map axis_len src) q -> value_there x D src q (derived_data D js q).
Proof.
  intros Hjs Hq. destruct (UfuncProps.located_place src (var_axes x) js q Hjs Hq) as [K1 K2]. eexists. split; [exact K1|]. split; [exact K2|]. reflexivity.
Qed.
Theorem difference_samples : exists r1 r2 r3,
  difference_sum env junk MAX X Y src ix K (fun v => v) = Some r1 /\ difference_sum env junk MAX X Y src ix K (fun v => mul v v) = Some r2 /\
  difference_sum env junk MAX X Y src ix K not_nan = Some r3 /\ shape r1 = map axis_len K /\
  forall k, position (map axis_len K) k -> exists l, differences_at X Y DX DY src (fibre G (map axis_len src) k) l /\
    Sample (val r1 k) (val r2 k) (val r3 k) = sample_of (numbers l).
Proof.
  destruct (difference_sum_spec (fun v => v)) as (r1 & R1 & S1 & V1). destruct (difference_sum_spec (fun v => mul v v)) as (r2 & R2 & S2 & V2). destruct (difference_sum_spec not_nan) as (r3 & R3 & S3 & V3).
  exists r1, r2, r3. split; [exact R1|]. split; [exact R2|]. split; [exact R3|]. split; [exact S1|]. intros k Hk.
  set (F := fibre G (map axis_len src) k) in *. pose proof (fibre_some k Hk) as HF. fold F in HF.
  pose proof (fun q => fibre_positions k q Hk) as Hpos. fold F in Hpos.
  exists (map (fun q => sub (E1 q) (E2 q)) F). split.
  - unfold differences_at. clearbody F. clear -Hpos Hjx Hjy. induction F as [|q F IH]; cbn [map]; constructor; [|apply IH; intros z Hz; apply Hpos; now right].
    exists (E1 q), (E2 q). split; [apply there_at; [exact Hjx|apply Hpos; now left]|]. split; [apply there_at; [exact Hjy|apply Hpos; now left]|reflexivity].
  - specialize (V1 k Hk). specialize (V2 k Hk). specialize (V3 k Hk). cbv zeta in V1, V2, V3. fold F in V1, V2, V3.
    set (l := map (fun q => sub (E1 q) (E2 q)) F) in *.
    assert (map (fun q => mul (sub (E1 q) (E2 q)) (sub (E1 q) (E2 q))) F = map (fun v => mul v v) l) as M2 by (unfold l; now rewrite map_map).
    assert (map (fun q => not_nan (sub (E1 q) (E2 q))) F = map not_nan l) as M3 by (unfold l; now rewrite map_map).
    rewrite M2 in V2. rewrite M3 in V3.
    assert (measured l) as Hm.
    { assert (forall v, In v l -> tame v) as H.
      { intros v Hv. apply in_map_iff in Hv as (q & <- & Hq). apply Hpos in Hq.
        destruct (there_at X DX jx q Hjx Hq) as (qx & Px & _ & Ex). destruct (there_at Y DY jy q Hjy Hq) as (qy & Py & _ & Ey). rewrite Ex, Ey.
        destruct (tame_cases _ (HXi qx Px)) as [->|(a & ->)]; [split; discriminate|]. destruct (tame_cases _ (HYi qy Py)) as [->|(b & ->)]; split; discriminate. }
      split; intros K; apply H in K as [K1 K2]; congruence. }
    assert (l <> []) as Hl by (unfold l; intros E; apply map_eq_nil in E; contradiction).
    rewrite (V1 (measured_summable _ Hm) Hl), (V2 (square_summable _) ltac:(intros E; apply map_eq_nil in E; contradiction)), (V3 (not_nan_summable _) ltac:(intros E; apply map_eq_nil in E; contradiction)).
    unfold sample_of. f_equal; [now apply nansum_measured|now apply nansumsq_measured|]. rewrite count_measured by exact Hm. reflexivity.
Qed.
End Sums.
