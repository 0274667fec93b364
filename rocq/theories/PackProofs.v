(** Proofs about packing and unpacking. *)
From Coq Require Import ZArith List Bool Lia QArith_base Qreduction Qcanon Field.
From Verif Require Import SortSpec IndexModel IndexSpec ArrModel ArrProofs ViewModel ViewSpec ViewProofs AxisModel AxisSpec VarOpsModel VarOpsSpec
  NumModel ReduceModel ReduceSpec ReduceKinds ReduceLemmas RespondProofs InterpProofs InterpView StatProofs StencilModel StencilSpec PackModel PackSpec.
Import ListNotations.
Open Scope Z_scope.

Lemma truncate_spec (q : Qc) (n : Z) : 0 <= n -> (- inject_Z n <= q)%Q -> (q <= inject_Z n)%Q ->
  - n <= truncate q <= n /\ (-(1) < inject_Z (truncate q) - q)%Q /\ (inject_Z (truncate q) - q < 1)%Q.
Proof.
  intros Hn. unfold truncate. destruct q as [[a b] Hq]. cbn [this Qnum Qden]. unfold Qle, Qlt, Qopp, Qminus, Qplus, inject_Z. cbn [Qnum Qden].
  rewrite !Pos.mul_1_l, !Z.mul_1_r. intros H1 H2. pose proof (Z.quot_rem' a (Zpos b)) as E. pose proof (Z.rem_bound_abs a (Zpos b) ltac:(lia)) as B.
  set (t := Z.quot a (Z.pos b)) in *. set (r := Z.rem a (Z.pos b)) in *.
  assert (- n <= t <= n). { split; nia. }
  split; [assumption|]. replace a with (Z.pos b * t + r) by lia. cbn [Qopp Qnum Qden]. split; nia.
Qed.
Lemma truncate_qc (t : Qc) (n : Z) : 0 <= n -> (- qz n <= t)%Qc -> (t <= qz n)%Qc ->
  - n <= truncate t <= n /\ (-(1) < qz (truncate t) - t)%Qc /\ (qz (truncate t) - t < 1)%Qc.
Proof.
  intros Hn H1 H2. unfold Qcle, Qclt in *. unfold qz in *.
  destruct (truncate_spec t n Hn) as (A & B & C).
  - unfold Qcopp, Q2Qc in H1. cbn [this] in H1. now rewrite !Qred_correct in H1.
  - unfold Q2Qc in H2. cbn [this] in H2. now rewrite !Qred_correct in H2.
  - split; [exact A|]. unfold Qcminus, Qcplus, Qcopp, Q2Qc. cbn [this]. rewrite !Qred_correct. split; [exact B|exact C].
Qed.

Notation step := packing_step.
Definition middle (lo hi : Qc) : Qc := (Q2Qc (1 # 2) * (lo + hi))%Qc.
Lemma qc_lt_of (a b : Qc) : (0 < b - a)%Qc -> (a < b)%Qc.
Proof. intros H. apply Qclt_minus_iff. exact H. Qed.
Lemma sub_pos (a b : Qc) : (a < b)%Qc -> (0 < b - a)%Qc.
Proof. intros H. apply Qclt_minus_iff in H. exact H. Qed.
Lemma step_pos lo hi : (lo < hi)%Qc -> (0 < step lo hi)%Qc.
Proof.
  intros H. unfold packing_step. apply sub_pos in H. change (0 < (hi - lo) * / qz 65534)%Qc.
  rewrite <- (Qcmult_0_l (/ qz 65534)%Qc). apply Qcmult_lt_compat_r; [reflexivity|exact H].
Qed.
Lemma half_range lo hi : (qz 32767 * step lo hi = Q2Qc (1 # 2) * (hi - lo))%Qc.
Proof. unfold packing_step. unfold Qcdiv. replace (qz 32767 * ((hi - lo) * / qz 65534))%Qc with ((qz 32767 * / qz 65534) * (hi - lo))%Qc by ring. f_equal; apply Qc_is_canon; reflexivity. Qed.
Lemma pack_close lo hi d : (lo < hi)%Qc -> (lo <= d)%Qc -> (d <= hi)%Qc ->
  let s := step lo hi in let z := truncate ((d - middle lo hi) / s) in
  -32767 <= z <= 32767 /\ (- s < qz z * s + middle lo hi - d)%Qc /\ (qz z * s + middle lo hi - d < s)%Qc.
Proof.
  intros Hlt H1 H2 s z. pose proof (step_pos lo hi Hlt) as Hs. fold s in Hs. pose proof (half_range lo hi) as Hh. fold s in Hh.
  assert (s <> 0)%Qc as Hne by (intros E; rewrite E in Hs; discriminate Hs).
  assert (Q2Qc (1 # 2) + Q2Qc (1 # 2) = 1)%Qc as Hhalf by (apply Qc_is_canon; reflexivity).
  set (o := middle lo hi) in *. set (t := ((d - o) / s)%Qc) in *. assert (t * s = d - o)%Qc as Et by (unfold t; field; exact Hne).
  assert (o - lo = qz 32767 * s)%Qc as El. { rewrite Hh. unfold o, middle. replace lo with (lo * (Q2Qc (1 # 2) + Q2Qc (1 # 2)))%Qc at 2 by (rewrite Hhalf; ring). ring. }
  assert (hi - o = qz 32767 * s)%Qc as Er. { rewrite Hh. unfold o, middle. replace hi with (hi * (Q2Qc (1 # 2) + Q2Qc (1 # 2)))%Qc at 1 by (rewrite Hhalf; ring). ring. }
  destruct (truncate_qc t 32767 ltac:(lia)) as (A & B & C).
  - apply Qcnot_lt_le. intros H. apply (Qcmult_lt_compat_r _ _ s Hs) in H. rewrite Et in H. replace (- qz 32767 * s)%Qc with (lo - o)%Qc in H.
    + apply Qclt_not_le in H. apply H. unfold Qcminus. apply Qcplus_le_compat; [exact H1|apply Qcle_refl].
    + replace (- qz 32767 * s)%Qc with (- (qz 32767 * s))%Qc by ring. rewrite <- El. ring.
  - apply Qcnot_lt_le. intros H. apply (Qcmult_lt_compat_r _ _ s Hs) in H. rewrite Et, <- Er in H. apply Qclt_not_le in H. apply H.
    unfold Qcminus. apply Qcplus_le_compat; [exact H2|apply Qcle_refl].
  - fold z in A, B, C. split; [exact A|]. replace (qz z * s + o - d)%Qc with ((qz z - t) * s)%Qc by (replace (qz z * s + o - d)%Qc with (qz z * s - (d - o))%Qc by ring; rewrite <- Et; ring).
    apply (Qcmult_lt_compat_r _ _ s Hs) in B. apply (Qcmult_lt_compat_r _ _ s Hs) in C. split.
    + replace (- s)%Qc with (-(1) * s)%Qc by ring. exact B.
    + rewrite Qcmult_1_l in C. exact C.
Qed.
Lemma middle_same lo : middle lo lo = lo.
Proof. unfold middle. replace (Q2Qc (1 # 2) * (lo + lo))%Qc with ((Q2Qc (1 # 2) + Q2Qc (1 # 2)) * lo)%Qc by ring. replace (Q2Qc (1 # 2) + Q2Qc (1 # 2))%Qc with 1%Qc by (apply Qc_is_canon; reflexivity). ring. Qed.

Lemma step_same lo : step lo lo = 0%Qc.
Proof. unfold packing_step, Qcdiv. ring. Qed.
Lemma back_fin wild lo hi d : (lo < hi)%Qc -> (lo <= d)%Qc -> (d <= hi)%Qc ->
  let c := to_int16 wild (div (sub (Fin d) (Fin (middle lo hi))) (Fin (step lo hi))) in
  -32767 <= c <= 32767 /\ exists e, unpack_value num_of_Z None (Some (Fin (step lo hi))) (Some (Fin (middle lo hi))) c = Fin e /\
     (- step lo hi < e - d)%Qc /\ (e - d < step lo hi)%Qc.
Proof.
  intros Hlt H1 H2 c. destruct (pack_close lo hi d Hlt H1 H2) as (A & B & C). cbv zeta in A, B, C.
  assert (c = truncate ((d - middle lo hi) / step lo hi)%Qc) as Ec.
  { unfold c. rewrite sub_fin, div_fin by (intros E; pose proof (step_pos lo hi Hlt) as P; rewrite E in P; discriminate P).
    cbn [to_int16]. replace (_ && _) with true; [reflexivity|]. symmetry. apply andb_true_intro. split; apply Z.leb_le; lia. }
  rewrite Ec. split; [exact A|]. eexists. split; [reflexivity|]. split; assumption.
Qed.
Lemma back_same lo c : unpack_value num_of_Z None (Some (Fin (step lo lo))) (Some (Fin (middle lo lo))) c = Fin lo.
Proof. unfold unpack_value, num_of_Z. cbn [mul add]. f_equal. rewrite step_same, middle_same. ring. Qed.

(** reading the parts *)
Section Pack.
Context (env : axenv) (Henv : env_ok env) (MAX : Z) (HMAX : 1 <= MAX) (junk : list Z -> num).

Lemma unpack_spec {W} (junkw : list Z -> W) (of : W -> num) newaxes fill scale offset (x : var axis W) D :
  responds env x D -> separate newaxes -> map axis_len newaxes = map axis_len (var_axes x) ->
  exists y, unpack env junkw of newaxes fill scale offset x = Some y /\ var_axes y = newaxes /\
            responds env y (fun q => unpack_value of fill scale offset (D q)).
Proof.
  intros Hx Hs Hl. unfold unpack. destruct (list_eq_dec Z.eq_dec (map axis_len newaxes) (map axis_len (var_axes x))) as [_|N]; [|contradiction].
  eexists. split; [reflexivity|]. split; [reflexivity|]. split; [exact Hs|]. cbn [var_source var_axes]. intros inds Hi. cbn [vinds view_of_inds].
  assert (Forall2 selection (var_axes x) inds) as Hi'.
  { clear -Hl Hi. revert inds Hi. revert Hl. generalize (var_axes x) as l. induction newaxes as [|a newaxes IH]; intros [|b l] Hl inds Hi; try discriminate Hl; inversion Hi; subst; constructor.
    - unfold selection in *. now injection Hl as <- _.
    - injection Hl as _ Hl. now apply IH. }
  destruct (responds_part env Henv junkw x D inds Hx Hi') as (r & Hg & Hr).
  rewrite Hg. eexists. split; [reflexivity|]. apply (map_arr_spec _ r _ _ Hr).
Qed.

Context (x : var axis num) (D : list Z -> num) (Hx : responds env x D) (Hgood : Forall good_axis (var_axes x)).
Context (Hne : var_axes x <> []) (Hpos : Forall (fun a => 0 < axis_len a) (var_axes x)).
Context (Hfin : forall q, position (var_shape x) q -> D q = NaN \/ exists d, D q = Fin d).
Context (q0 : list Z) (d0 : Qc) (Hq0 : position (var_shape x) q0) (Hd0 : D q0 = Fin d0).

Notation extremes := (extremes x D).
Lemma in_values v : In v (not_nans (map D (positions (var_shape x)))) <-> exists q d, position (var_shape x) q /\ D q = Fin d /\ v = Fin d.
Proof.
  rewrite In_not_nans, in_map_iff. split.
  - intros [(q & <- & Hq) Hn]. apply in_positions in Hq. destruct (Hfin q Hq) as [E|(d & E)]; rewrite E in *; [discriminate|]. now exists q, d.
  - intros (q & d & Hq & E & ->). split; [|reflexivity]. exists q. split; [exact E|]. now apply in_positions.
Qed.
Lemma packing_spec : exists lo hi, packing env junk MAX x = Some (Fin (step lo hi), Fin (middle lo hi)) /\ extremes lo hi.
Proof.
  destruct (made_all env Henv junk x D Hx Hgood D _ _ Hne Hpos (rel_nanmin env Henv MAX HMAX junk x D Hx Hgood)) as (mn & Emn & _ & Hmn).
  destruct (made_all env Henv junk x D Hx Hgood D _ _ Hne Hpos (rel_nanmax env Henv MAX HMAX junk x D Hx Hgood)) as (mx & Emx & _ & Hmx).
  assert (In (Fin d0) (not_nans (map D (positions (var_shape x))))) as H0 by (apply in_values; now exists q0, d0).
  destruct Hmn as [[E _]|[Hin1 Hle1]]; [rewrite E in H0; destruct H0|]. destruct Hmx as [[E _]|[Hin2 Hle2]]; [rewrite E in H0; destruct H0|].
  pose proof (proj1 (in_values _) Hin1) as (q1 & lo & Hq1 & E1 & Elo). pose proof (proj1 (in_values _) Hin2) as (q2 & hi & Hq2 & E2 & Ehi).
  exists lo, hi. unfold packing. rewrite Emn, Emx. cbn [bind]. rewrite Elo, Ehi. split.
  - rewrite sub_fin. unfold num_of_Z. rewrite div_fin by discriminate. unfold half. cbn [add mul]. reflexivity.
  - split; [now exists q1|]. split; [now exists q2|]. intros q d Hq E.
    assert (In (Fin d) (not_nans (map D (positions (var_shape x))))) as Hd by (apply in_values; now exists q, d).
    specialize (Hle1 _ Hd). specialize (Hle2 _ Hd). rewrite Elo in Hle1. rewrite Ehi in Hle2. cbn [ltb] in *. split; now apply qc_ltb_false.
Qed.

Lemma pack_spec wild : exists lo hi y, pack env junk MAX wild x = Some (y, Fin (step lo hi), Fin (middle lo hi)) /\ extremes lo hi /\ var_axes y = var_axes x /\
  responds env y (fun q => to_int16 wild (div (sub (D q) (Fin (middle lo hi))) (Fin (step lo hi)))).
Proof.
  destruct packing_spec as (lo & hi & Ep & Hex). unfold pack. rewrite Ep. cbn [bind]. exists lo, hi. eexists. split; [reflexivity|]. split; [exact Hex|]. split; [reflexivity|].
  split; [exact (proj1 Hx)|]. cbn [var_source var_axes]. intros inds Hi. destruct (responds_part env Henv junk x D inds Hx Hi) as (r & Hg & Hr).
  rewrite Hg. eexists. split; [reflexivity|]. exact (map_arr_spec (fun u => to_int16 wild (div (sub u (Fin (middle lo hi))) (Fin (step lo hi)))) r _ _ Hr).
Qed.

End Pack.
