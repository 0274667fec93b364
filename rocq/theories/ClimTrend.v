(** Lemmas for the climatologies: trends. *)
From Coq Require Import ZArith List Bool Lia ZifyBool Permutation QArith_base QArith Qcanon Field.
From Verif Require Import CalModel CalSpec TimeSearchModel TimeSearchSpec TimeSearchProofs TimeMapProofs TimeDateProofs SortSpec IndexModel IndexSpec IndexProofs ArrModel ArrProofs
  ViewModel ViewSpec ViewProofs AxisModel AxisSpec AxisProofs VarOpsModel VarOpsSpec VarOpsProofs NumModel NumProofs ReduceModel ReduceSpec StatProofs UfuncModel UfuncView StencilModel StencilSpec StencilProofs StencilProps IntgrProofs
  RespondProofs ChunkProofs LoopProofs BlockProofs FlattenProofs InterpView SmoothView CompositeProofs ConcatProofs ClimModel ClimSpec ClimSum ClimAxis ClimChunk ClimView ClimTotal ClimStat ClimLine.
Import ListNotations.
Open Scope Z_scope.
Notation zlen := IndexSpec.zlen.
Notation znth := ArrModel.znth.
Notation total := ReduceSpec.total.

Lemma seconds_spec env t : good_axis (Time t) -> exists y, seconds_var t = Some y /\ var_axes y = [Time t] /\ responds env y (fun p => Fin (time_seconds t (nth 0 p 0))).
Proof.
  intros (Hs & _ & _ & Hv & _).
  assert (exists s, sequence (map (fun d => date_as_val (t_cal t) (t_start t) Seconds (mask_date (t_mask t) d)) (t_dates t)) = Some s /\
    Forall2 (fun v w => Q2Qc w = Q2Qc (v * inject_Z (seconds_in (t_units t)))) (t_vals t) s) as (s & Es & Hf).
  { clear Hs. revert Hv. generalize (t_vals t). induction (t_dates t) as [|d l IH]; intros [|v vals] Hv; try discriminate.
    - exists []. split; [reflexivity|constructor].
    - cbn [map] in Hv. injection Hv as Hd Hl. destruct (IH vals Hl) as (s & Es & Hf).
      unfold axis_value, date_as_val in Hd. destruct (c_date_as_val (t_cal t) (get_dates (t_start t)) (get_dates (mask_date (t_mask t) d))) as [k|] eqn:Ek; [|discriminate].
      injection Hd as <-. exists ((k # 1) :: s). split.
      + cbn [map sequence]. unfold date_as_val at 1. rewrite Ek. cbn [unitfactor]. rewrite Es. reflexivity.
      + constructor; [|exact Hf]. apply Q2Qc_eq_iff. unfold Qeq. cbn [Qnum Qden Qmult inject_Z]. destruct (t_units t); cbn [seconds_in unitfactor]; lia. }
  unfold seconds_var. rewrite Es. cbn [bind]. eexists. split; [reflexivity|]. split; [reflexivity|]. split.
  - intros [|i] [|j] b c Hb Hc Hne; cbn in Hb, Hc; try congruence; try (destruct i; discriminate). destruct j; discriminate.
  - cbn [var_source]. unfold represents. cbn [var_source var_axes map]. split; [reflexivity|]. intros p Hp. cbn [val]. f_equal. unfold time_seconds.
    inversion Hp as [|? i ? p' Hi Hp']; subst. inversion Hp'; subst. cbn [nth].
    assert (length (t_vals t) = length (t_dates t)) as El by (apply (f_equal (@length _)) in Hv; rewrite !map_length in Hv; lia).
    assert (Z.to_nat i < length (t_vals t))%nat as Li by (cbn [len axis_ops axis_len] in Hi; unfold zlen in Hi; lia).
    apply (Forall2_nth_error _ _ _ (Z.to_nat i) _ _ Hf); apply nth_error_nth'; [exact Li|]. rewrite <- (Forall2_len _ _ _ Hf). exact Li.
Qed.

Section View.
Context (env : axenv) (Henv : env_ok env) (lexsort : list (list Z) -> list Z) (Hlex : lexsort_ok lexsort) (junk : list Z -> num) (MAX : Z) (HMAX : 1 <= MAX).
Notation ops := (axis_ops env).
Notation var := (ViewModel.var axis num).
Context (A : list axis) (Hsep : separate A) (Hgood : Forall good_axis A) (ti : nat) (t : taxis) (Ht : nth_error A ti = Some (Time t))
        (Honly : forall i s, nth_error A i = Some (Time s) -> i = ti)
        (u : taxis) (Hu : good_axis (Time u)) (Hcl : t_class u = t_class t) (Hsub : mask_sub (t_mask u) (t_mask t) = true)
        (Hin : forall r, In r (records (t_mask u) u) -> In r (records (t_mask u) t)).
Notation A' := (set_at A ti (Time u)).
Context (coef : axis) (K : list (list Z)) (kc : list Z) (HK : Forall2 selection A' K).
Context (x : var) (D : list Z -> num) (Hx : responds env x D) (EA : var_axes x = A).
Definition mean_of (G : list Z -> num) (q : list Z) : num := div (np_sum (group ti t u G q)) (num_of_Z (zlen (group ti t u G q))).
Notation T := (fun q : list Z => Fin (time_seconds t (nth ti q 0))).
Definition line (q : list Z) (c : Z) : num :=
  let X := mean_of T q in let F := mean_of D q in let XF := mean_of (fun q => mul (D q) (T q)) q in let X2 := mean_of (fun q => mul (T q) (T q)) q in
  if c =? 0 then offset X F XF X2 else slope X F XF X2.
Lemma trend_group : (forall c, In c kc -> c = 0 \/ c = 1) ->
  exists r, trend_view env lexsort junk MAX x ti (view_of_inds (A' ++ [coef]) (K ++ [kc])) = Some r /\
    array_is r (map zlen (K ++ [kc])) (fun p => line (gather K (removelast p)) (znth kc (last p 0))).
Proof.
  intros Hkc. unfold trend_view. rewrite EA, (time_index_at A ti t Ht Honly). cbn [bind].
  pose proof (proj1 (Forall_forall _ _) Hgood _ (nth_error_In _ _ Ht)) as Gt.
  destruct (seconds_spec env t Gt) as (secs & Esecs & Asecs & Rsecs). rewrite Esecs. cbn [bind].
  assert (without_last (view_of_inds (A' ++ [coef]) (K ++ [kc])) = view_of_inds A' K) as ->.
  { unfold without_last, view_of_inds. cbn [vaxes vslices vinds]. rewrite map_app, !removelast_app by discriminate. cbn [map removelast]. now rewrite !app_nil_r. }
  pose proof (means_group env Henv lexsort Hlex junk MAX HMAX A Hgood ti t Ht Honly u Hu Hcl Hsub Hin K HK) as Hmeans.
  destruct (Hmeans the_data x [secs] _ EA (makes_first env Henv junk A Hsep Hgood ti t Ht Honly u Hu Hin K HK x secs D _ Hx EA Rsecs Asecs)) as (F & EF & SF & VF).
  destruct (Hmeans the_times x [secs] _ EA (makes_times env Henv junk A Hsep Hgood ti t Ht Honly u Hu Hin K HK x secs D _ Hx EA Rsecs Asecs)) as (X & EX & SX & VX).
  destruct (Hmeans data_times x [secs] _ EA (makes_data_times env Henv junk A Hsep Hgood ti t Ht Honly u Hu Hin K HK x secs D _ Hx EA Rsecs Asecs)) as (XF & EXF & SXF & VXF).
  destruct (Hmeans times_squared x [secs] _ EA (makes_times_squared env Henv junk A Hsep Hgood ti t Ht Honly u Hu Hin K HK x secs D _ Hx EA Rsecs Asecs)) as (X2 & EX2 & SX2 & VX2).
  rewrite EF, EX, EXF, EX2. cbn [bind]. eexists. split; [reflexivity|]. split; [reflexivity|]. intros p Hp. cbn [val vinds view_of_inds].
  rewrite map_app in Hp. cbn [map] in Hp. rewrite last_last.
  assert (exists q j, p = q ++ [j] /\ position (map zlen K) q /\ 0 <= j < zlen kc) as (q & j & -> & Hq & Hj).
  { apply Forall2_app_inv_l in Hp as (q & r & Hq & Hr & ->). inversion Hr as [|? j ? r' Hj Hr']; subst. inversion Hr'; subst. exists q, j. auto. }
  rewrite removelast_last, last_last. rewrite (VX q Hq), (VF q Hq), (VXF q Hq), (VX2 q Hq). unfold line. cbv zeta.
  assert (In (znth kc j) kc) as Hc by (destruct (elem_znth kc j Hj) as [_ Q]; eapply nth_error_In, Q).
  destruct (Hkc _ Hc) as [E|E]; rewrite E; reflexivity.
Qed.
End View.

(** *** for finite values *)
Lemma np_sum_mul (l : list (Qc * Qc)) : np_sum (map (fun '(s, f) => mul (Fin f) (Fin s)) l) = Fin (total (map (fun '(s, f) => s * f)%Qc l)).
Proof.
  induction l as [|[s f] l IH]; [reflexivity|]. cbn [map]. unfold np_sum in *. cbn [fold_right]. rewrite IH. cbn [mul add]. f_equal. unfold total. cbn [fold_right]. ring.
Qed.
Section Finite.
Context (ti : nat) (t u : taxis) (D : list Z -> num) (q : list Z) (Hq : (ti < length q)%nat).
Notation Tm := (times_on t u (nth ti q 0)).
Context (fs : list Qc) (Hfs : map (fun i => D (set_at q ti i)) Tm = map Fin fs).
Notation pts := (combine (map (time_seconds t) Tm) fs).
Lemma len_fs : length fs = length Tm.
Proof. apply (f_equal (@length _)) in Hfs. rewrite !map_length in Hfs. lia. Qed.
Lemma group_T : group ti t u (fun q => Fin (time_seconds t (nth ti q 0))) q = map Fin (map fst pts).
Proof.
  unfold group. rewrite map_fst_combine by (rewrite map_length; symmetry; apply len_fs). rewrite map_map. apply map_ext. intros i. f_equal. f_equal. now apply nth_set_same.
Qed.
Lemma snd_combine {X Y} (l : list X) (r : list Y) : length l = length r -> map snd (combine l r) = r.
Proof. revert r. induction l as [|a l IH]; intros [|b r] H; try discriminate; [reflexivity|]. cbn. f_equal. apply IH. now injection H. Qed.
Lemma group_D : group ti t u D q = map Fin (map snd pts).
Proof. unfold group. rewrite Hfs. rewrite snd_combine; [reflexivity|]. rewrite map_length. symmetry. apply len_fs. Qed.
Lemma group_DT : group ti t u (fun q => mul (D q) (Fin (time_seconds t (nth ti q 0)))) q = map (fun '(s, f) => mul (Fin f) (Fin s)) pts.
Proof.
  unfold group. assert (forall l gs, map (fun i => D (set_at q ti i)) l = map Fin gs ->
    map (fun i => mul (D (set_at q ti i)) (Fin (time_seconds t (nth ti (set_at q ti i) 0)))) l = map (fun '(s, f) => mul (Fin f) (Fin s)) (combine (map (time_seconds t) l) gs)) as K; [|exact (K _ _ Hfs)].
  induction l as [|i l IH]; intros [|f gs] H; try discriminate; [reflexivity|].
  cbn [map] in H. injection H as H1 H2. cbn [map combine]. rewrite H1, nth_set_same by exact Hq. f_equal. now apply IH.
Qed.
Lemma group_TT : group ti t u (fun q => mul (Fin (time_seconds t (nth ti q 0))) (Fin (time_seconds t (nth ti q 0)))) q = map (fun v => mul v v) (map Fin (map fst pts)).
Proof. rewrite <- group_T. unfold group. now rewrite map_map. Qed.
Lemma pts_len : zlen pts = zlen Tm.
Proof. unfold zlen. rewrite combine_length, map_length, len_fs. f_equal. lia. Qed.
Theorem line_best i j : In i Tm -> In j Tm -> time_seconds t i <> time_seconds t j ->
  exists a b, line ti t u D q 0 = Fin a /\ line ti t u D q 1 = Fin b /\ best_line pts a b.
Proof.
  intros Hi Hj Hne.
  assert (forall i, In i Tm -> exists p, In p pts /\ fst p = time_seconds t i) as Hp.
  { assert (forall l (gs : list Qc) k, In k l -> length gs = length l -> exists p, In p (combine (map (time_seconds t) l) gs) /\ fst p = time_seconds t k) as Q.
    { induction l as [|m l IH]; intros gs k Hk Hl; [destruct Hk|]. destruct gs as [|g gs]; [discriminate|]. destruct Hk as [->|Hk].
      - exists (time_seconds t k, g). split; [now left|reflexivity].
      - destruct (IH gs k Hk) as (p & Hp & E); [now injection Hl|]. exists p. split; [now right|exact E]. }
    intros k Hk. apply Q; [exact Hk|exact len_fs]. }
  destruct (Hp i Hi) as (pi & Hpi & Ei). destruct (Hp j Hj) as (pj & Hpj & Ej).
  assert (fst pi <> fst pj) as Hpne by congruence.
  pose proof (spread_times pts pi pj Hpi Hpj Hpne) as Hd.
  assert (Q2Qc (inject_Z (zlen pts)) <> Q2Qc 0) as Hn.
  { destruct pts as [|p r]; [destruct Hpi|]. intros H. apply (qz_inj (zlen (p :: r)) 0) in H. unfold zlen in H. cbn in H. lia. }
  eexists _, _. split; [|split; [|exact (least_line pts pi pj Hpi Hpj Hpne)]]; unfold line, mean_of; rewrite group_T, group_D, group_DT, group_TT;
    rewrite !zlen_map, !np_sum_fin, np_sum_mul, np_sum_squares; change qsum with total; unfold num_of_Z; rewrite !div_fin by exact Hn; cbn [Z.eqb];
    unfold offset, slope; cbn [mul]; rewrite !sub_fin; rewrite div_fin; try (f_equal; field; repeat split; try assumption); 
    intros E; apply Hd;
    (match type of E with ?e = _ => transitivity (Q2Qc (inject_Z (zlen pts)) * Q2Qc (inject_Z (zlen pts)) * e)%Qc; [field; exact Hn|rewrite E; ring] end).
Qed.
End Finite.
