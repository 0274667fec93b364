(** From the sums to the results of regress and correlate. *)
From Coq Require Import ZArith List Bool Lia QArith_base Qcanon.
From Verif Require Import SortSpec IndexModel IndexSpec IndexProofs ArrModel ArrProofs ViewModel ViewSpec ViewProofs
     AxisModel AxisSpec AxisProofs VarOpsModel VarOpsSpec VarOpsProofs NumModel NumProofs ReduceModel ReduceSpec ReduceProofs ReduceKinds StatProofs RespondProofs
     ClimSpec ClimLine StencilSpec UfuncModel UfuncSpec UfuncProofs UfuncView RegressModel RegressSpec RegressAxes RegressSums RegressLine.
From Verif Require UfuncProps StencilProps.
Import ListNotations.
Open Scope Z_scope.
Open Scope list_scope.

Definition tame (v : num) : Prop := v <> PInf /\ v <> MInf.
Lemma tame_cases v : tame v -> v = NaN \/ exists q, v = Fin q.
Proof. destruct v; intros [H1 H2]; try congruence; eauto. Qed.

Section Points.
Context (g : num -> num -> num) (h : Qc * Qc -> Qc)
  (Hg : forall x y, g (Fin x) (Fin y) = Fin (h (x, y))) (Hn : forall u v, tame u -> tame v -> u = NaN \/ v = NaN -> g u v = NaN \/ g u v = zero).
Lemma points_case u v : tame u -> tame v -> (exists x y, u = Fin x /\ v = Fin y /\ g u v = Fin (h (x, y))) \/
  ((u = NaN \/ v = NaN) /\ (g u v = NaN \/ g u v = zero)).
Proof.
  intros Hu Hv. destruct (tame_cases u Hu) as [->|(x & ->)]; [right; split; [now left|apply Hn; auto]|]. destruct (tame_cases v Hv) as [->|(y & ->)]; [right; split; [now right|apply Hn; auto]|].
  left. eauto.
Qed.
Lemma points_skip u v l : u = NaN \/ v = NaN -> points ((u, v) :: l) = points l.
Proof. intros [->| ->]; [reflexivity|]. destruct u; reflexivity. Qed.
Lemma points_total l : Forall (fun uv => tame (fst uv) /\ tame (snd uv)) l ->
  summable (map (fun uv => g (fst uv) (snd uv)) l) /\ np_nansum (map (fun uv => g (fst uv) (snd uv)) l) = Fin (total (map h (points l))).
Proof.
  intros H. assert (~ In PInf (map (fun uv => g (fst uv) (snd uv)) l) /\ np_nansum (map (fun uv => g (fst uv) (snd uv)) l) = Fin (total (map h (points l)))) as [K1 K2].
  { induction H as [|[u v] l [Hu Hv] _ [IH1 IH2]]; [split; [intros []|reflexivity]|]. cbn [map fst snd] in *. unfold np_nansum in *. cbn [map np_sum fold_right] in *.
    destruct (points_case u v Hu Hv) as [(x & y & -> & -> & E)|[E1 E]].
    - rewrite E in *. split; [intros [K|K]; [discriminate|tauto]|]. unfold np_sum in IH2. rewrite IH2. reflexivity.
    - rewrite (points_skip _ _ _ E1). split; [destruct E as [->| ->]; (intros [K|K]; [discriminate|tauto])|]. unfold np_sum in IH2. rewrite IH2.
      destruct E as [->| ->]; apply add_0_l. }
  split; [intros [K _]; contradiction|exact K2].
Qed.
End Points.

Section Sums.
Context (env : axenv) (Henv : env_ok env) (MAX : Z) (HMAX : 1 <= MAX) (junk : list Z -> num) (X Y : var axis num) (DX DY : list Z -> num)
  (HX : responds env X DX) (HY : responds env Y DY) (Hfit : fitting X Y) (HXi : no_infinities X DX) (HYi : no_infinities Y DY) (outer over : list axis).
Notation All := (var_axes X ++ var_axes Y).
Context (Hsep : separate (outer ++ over)) (Hincl : incl (outer ++ over) All) (Hcov : covers_axes All (outer ++ over)).

Lemma there x D js k r : Forall2 (located (outer ++ over)) (var_axes x) js -> position (map axis_len outer) k -> In r (positions (map axis_len over)) ->
  value_there x D (outer ++ over) (k ++ r) (derived_data D js (k ++ r)).
Proof.
  intros Hjs Hk Hr. assert (position (map axis_len (outer ++ over)) (k ++ r)) as Hp.
  { rewrite map_app. apply Forall2_app; [exact Hk|]. apply BlockProofs.in_product in Hr. rewrite Forall2_map_l in Hr. eapply Forall2_impl; [|exact Hr].
    intros n i Hi. cbv beta in Hi. now apply IntgrProofs.In_arange1 in Hi. }
  destruct (UfuncProps.located_place (outer ++ over) (var_axes x) js (k ++ r) Hjs Hp) as [K1 K2]. eexists. split; [exact K1|]. split; [exact K2|]. reflexivity.
Qed.

Theorem pair_sums_spec : exists s, pair_sums env junk MAX X Y outer over = Some s /\ shape s = map axis_len outer /\
  forall k, position (map axis_len outer) k -> exists pairs, pairs_at X Y DX DY outer over k pairs /\ val s k = sums_of (points pairs).
Proof.
  pose proof HX as [SX _]. pose proof HY as [SY _].
  destruct (locate_axes All (outer ++ over) (var_axes X) Hsep Hcov) as (jx & Hjx & Hnx); [apply incl_appl, incl_refl|exact SX|].
  destruct (locate_axes All (outer ++ over) (var_axes Y) Hsep Hcov) as (jy & Hjy & Hny); [apply incl_appr, incl_refl|exact SY|].
  pose proof (pair_sum_spec env Henv MAX HMAX junk X Y DX DY HX HY Hfit outer over Hsep Hincl jx jy Hjx Hnx Hjy Hny) as Sum.
  set (E1 := EX DX jx) in *. set (E2 := EY DY jy) in *.
  destruct (Sum (fun '(x, y, xy) => x) (fun u v => if is_nan (mul u v) then NaN else u)) as (rx & R1 & S1 & V1).
  { intros xa ya xya s hx hy H _ _. exact H. }
  destruct (Sum (fun '(x, y, xy) => y) (fun u v => if is_nan (mul u v) then NaN else v)) as (ry & R2 & S2 & V2).
  { intros xa ya xya s hx hy _ H _. exact H. }
  destruct (Sum (fun '(x, y, xy) => squared x) (fun u v => let w := if is_nan (mul u v) then NaN else u in mul w w)) as (rxx & R3 & S3 & V3).
  { intros xa ya xya s hx hy [H1 H2] _ _. split; [exact H1|]. intros p Hp. unfold squared, map_arr. cbn [val]. rewrite (H2 p Hp). reflexivity. }
  destruct (Sum (fun '(x, y, xy) => squared y) (fun u v => let w := if is_nan (mul u v) then NaN else v in mul w w)) as (ryy & R4 & S4 & V4).
  { intros xa ya xya s hx hy _ [H1 H2] _. split; [exact H1|]. intros p Hp. unfold squared, map_arr. cbn [val]. rewrite (H2 p Hp). reflexivity. }
  destruct (Sum (fun '(x, y, xy) => xy) (fun u v => mul u v)) as (rxy & R5 & S5 & V5).
  { intros xa ya xya s hx hy _ _ H. exact H. }
  destruct (Sum (fun '(x, y, xy) => map_arr not_nan xy) (fun u v => not_nan (mul u v))) as (rn & R6 & S6 & V6).
  { intros xa ya xya s hx hy _ _ [H1 H2]. split; [exact H1|]. intros p Hp. unfold map_arr. cbn [val]. rewrite (H2 p Hp). reflexivity. }
  unfold pair_sums. rewrite R1, R2, R3, R4, R5, R6. eexists. split; [reflexivity|]. cbn [shape val]. split; [exact (proj1 S1)|].
  intros k Hk. set (P := positions (map axis_len over)) in *. exists (map (fun r => (E1 (k ++ r), E2 (k ++ r))) P).
  assert (pairs_at X Y DX DY outer over k (map (fun r => (E1 (k ++ r), E2 (k ++ r))) P)) as Hpairs.
  { unfold pairs_at. fold P. assert (forall L, incl L P -> Forall2 (fun r '(u, v) => value_there X DX (outer ++ over) (k ++ r) u /\ value_there Y DY (outer ++ over) (k ++ r) v) L (map (fun r => (E1 (k ++ r), E2 (k ++ r))) L)) as K; [|apply K, incl_refl].
    induction L as [|r L IH]; intros HL; [constructor|]. cbn [map]. constructor; [|apply IH; intros z Hz; apply HL; now right].
    split; [exact (there X DX jx k r Hjx Hk (HL r (or_introl eq_refl)))|exact (there Y DY jy k r Hjy Hk (HL r (or_introl eq_refl)))]. }
  split; [exact Hpairs|].
  assert (Forall (fun uv => tame (fst uv) /\ tame (snd uv)) (map (fun r => (E1 (k ++ r), E2 (k ++ r))) P)) as Ht.
  { apply Forall_forall. intros uv Huv. apply in_map_iff in Huv as (r & <- & Hr). cbn [fst snd].
    destruct (there X DX jx k r Hjx Hk Hr) as (q & Hq & _ & Eq). destruct (there Y DY jy k r Hjy Hk Hr) as (q' & Hq' & _ & Eq').
    split; [unfold tame; change (E1 (k ++ r)) with (derived_data DX jx (k ++ r)); rewrite Eq; now apply HXi|unfold tame; change (E2 (k ++ r)) with (derived_data DY jy (k ++ r)); rewrite Eq'; now apply HYi]. }
  set (pairs := map (fun r => (E1 (k ++ r), E2 (k ++ r))) P) in *.
  assert (forall g : num -> num -> num, map (fun r => g (E1 (k ++ r)) (E2 (k ++ r))) P = map (fun uv : num * num => g (fst uv) (snd uv)) pairs) as Em by (intros g; unfold pairs; rewrite map_map; reflexivity).
  assert (forall u v : num, tame u -> tame v -> u = NaN \/ v = NaN -> mul u v = NaN) as Hm.
  { intros u v _ _ [->| ->]; [reflexivity|]. now destruct u. }
  unfold sums_of. f_equal.
  - destruct (points_total (fun u v => if is_nan (mul u v) then NaN else u) fst ltac:(reflexivity) ltac:(intros u v Hu Hv H; cbv beta zeta; rewrite (Hm u v Hu Hv H); now left) pairs Ht) as [T1 T2].
    rewrite <- (Em (fun u v => if is_nan (mul u v) then NaN else u)) in T1, T2. rewrite (V1 k Hk T1). exact T2.
  - destruct (points_total (fun u v => if is_nan (mul u v) then NaN else v) snd ltac:(reflexivity) ltac:(intros u v Hu Hv H; cbv beta zeta; rewrite (Hm u v Hu Hv H); now left) pairs Ht) as [T1 T2].
    rewrite <- (Em (fun u v => if is_nan (mul u v) then NaN else v)) in T1, T2. rewrite (V2 k Hk T1). exact T2.
  - destruct (points_total (fun u v => let w := if is_nan (mul u v) then NaN else u in mul w w) (fun p => fst p * fst p)%Qc ltac:(reflexivity) ltac:(intros u v Hu Hv H; cbv beta zeta; rewrite (Hm u v Hu Hv H); now left) pairs Ht) as [T1 T2].
    rewrite <- (Em (fun u v => let w := if is_nan (mul u v) then NaN else u in mul w w)) in T1, T2. rewrite (V3 k Hk T1). rewrite T2. unfold squares. now rewrite map_map.
  - destruct (points_total (fun u v => let w := if is_nan (mul u v) then NaN else v in mul w w) (fun p => snd p * snd p)%Qc ltac:(reflexivity) ltac:(intros u v Hu Hv H; cbv beta zeta; rewrite (Hm u v Hu Hv H); now left) pairs Ht) as [T1 T2].
    rewrite <- (Em (fun u v => let w := if is_nan (mul u v) then NaN else v in mul w w)) in T1, T2. rewrite (V4 k Hk T1). rewrite T2. unfold squares. now rewrite map_map.
  - destruct (points_total (fun u v => mul u v) (fun p => fst p * snd p)%Qc ltac:(reflexivity) ltac:(intros u v Hu Hv H; cbv beta zeta; rewrite (Hm u v Hu Hv H); now left) pairs Ht) as [T1 T2].
    rewrite <- (Em (fun u v => mul u v)) in T1, T2. rewrite (V5 k Hk T1). exact T2.
  - destruct (points_total (fun u v => not_nan (mul u v)) (fun _ => Q2Qc 1) ltac:(reflexivity) ltac:(intros u v Hu Hv H; cbv beta zeta; rewrite (Hm u v Hu Hv H); now right) pairs Ht) as [T1 T2].
    rewrite <- (Em (fun u v => not_nan (mul u v))) in T1, T2. rewrite (V6 k Hk T1). rewrite T2. unfold num_of_Z. f_equal. generalize (points pairs). clear.
    induction l as [|p l IH]; [reflexivity|]. cbn [map]. rewrite total_cons, cnt_cons, IH. reflexivity.
Qed.
End Sums.
