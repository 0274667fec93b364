(** The tests of means. *)
From Coq Require Import ZArith List Bool Lia QArith_base Qround Qcanon Qreduction Field.
From Verif Require Import SortSpec IndexModel IndexSpec IndexProofs ArrModel ArrProofs ViewModel ViewSpec ViewProofs FibreProofs
     AxisModel AxisSpec AxisProofs VarOpsModel VarOpsSpec VarOpsProofs NumModel NumProofs ReduceModel ReduceSpec ReduceProofs ReduceKinds StatProofs ReduceLemmas RespondProofs LoopProofs BlockProofs
     ClimSpec ClimLine StencilSpec UfuncModel UfuncSpec UfuncProofs UfuncView RegressModel RegressSpec RegressAxes RegressSums RegressLine RegressProofs MeansModel MeansSpec.
Import ListNotations.
Open Scope Z_scope.
Open Scope list_scope.
Notation zlen := IndexSpec.zlen.

Definition sample_of (l : list Qc) : sample := Sample (Fin (total l)) (Fin (total (squares l))) (num_of_Z (zlen l)).

(** ** at one point *)
Lemma effective_spec N_fac l : (forall f, N_fac = Some f -> 0 < f) -> effective (num_of_Z (zlen l)) N_fac = num_of_Z (counted N_fac l).
Proof.
  intros Hf. destruct N_fac as [f|]; [|reflexivity]. unfold effective, floor_div, num_of_Z, counted. f_equal. f_equal. f_equal.
  rewrite Zdiv_Qdiv. apply Qfloor_comp. cbn [this Q2Qc]. now rewrite Qred_correct.
Qed.
Lemma one_ltb n : ltb one (num_of_Z n) = (1 <? n).
Proof. unfold one, num_of_Z. rewrite ltb_fin. apply (qz_ltb 1 n). Qed.
Lemma minus_one n : sub (num_of_Z n) one = num_of_Z (n - 1).
Proof. unfold one, num_of_Z. rewrite sub_fin. f_equal. replace n with (n - 1 + 1) at 1 by lia. rewrite (qz_add (n - 1) 1). ring. Qed.
Lemma qz_pos n : 0 < n -> (Q2Qc 0 < Q2Qc (inject_Z n))%Qc.
Proof. apply (qz_lt 0 n). Qed.
Lemma div_fin' p n : 0 < n -> div (Fin p) (num_of_Z n) = Fin (p / Q2Qc (inject_Z n))%Qc.
Proof. intros H. apply div_fin. now apply pos_ne, qz_pos. Qed.
Lemma count_zlen l : count l = Q2Qc (inject_Z (zlen l)).
Proof. reflexivity. Qed.
Lemma zlen_ne {A} (l : list A) : 1 < zlen l -> l <> [].
Proof. intros H ->. cbn in H. lia. Qed.
Lemma zlen_2 {A} (l : list A) : 1 < zlen l <-> (2 <= length l)%nat.
Proof. unfold zlen. lia. Qed.

Lemma qz_pred l : Q2Qc (inject_Z (zlen l - 1)) = (count l - Q2Qc 1)%Qc.
Proof. rewrite count_zlen. pose proof (qz_add (zlen l - 1) 1) as E. replace (zlen l - 1 + 1) with (zlen l) in E by lia. rewrite E. change (Q2Qc (inject_Z 1)) with (Q2Qc 1). ring. Qed.
Lemma sample_variance l : 1 < zlen l ->
  div (sub (Fin (total (squares l))) (div (mul (Fin (total l)) (Fin (total l))) (num_of_Z (zlen l)))) (sub (num_of_Z (zlen l)) one) = Fin (variance l).
Proof.
  intros H. pose proof (zlen_ne l H) as Hne. rewrite mul_fin, minus_one, div_fin' by lia. rewrite sub_fin, div_fin' by lia. f_equal. rewrite variance_eq' by exact Hne.
  rewrite qz_pred. reflexivity.
Qed.
Lemma sample_mean l : l <> [] -> div (Fin (total l)) (num_of_Z (zlen l)) = Fin (average l).
Proof. intros H. apply div_fin'. unfold zlen. destruct l; [congruence|]. cbn [length]. lia. Qed.
Lemma variance_spread l : variance l = (spread l / (count l - Q2Qc 1))%Qc.
Proof. reflexivity. Qed.
Lemma variance_differ l : 1 < zlen l -> (differ l -> (Q2Qc 0 < variance l)%Qc) /\ (~ differ l -> variance l = Q2Qc 0).
Proof.
  intros H. apply zlen_2 in H. pose proof (count_minus l H) as Hc. rewrite variance_spread. split; intros D.
  - apply differ_spread in D. unfold Qcdiv. rewrite <- (Qcmult_0_l (/ (count l - Q2Qc 1))). apply Qcmult_lt_compat_r; [|exact D].
    destruct (Qclt_le_dec (Q2Qc 0) (/ (count l - Q2Qc 1))%Qc) as [|K]; [assumption|exfalso].
    assert (Q2Qc 1 <= Q2Qc 0)%Qc as K'; [|now apply K']. replace (Q2Qc 1) with (/ (count l - Q2Qc 1) * (count l - Q2Qc 1))%Qc by (field; now apply pos_ne).
    rewrite <- (Qcmult_0_l (count l - Q2Qc 1)). apply Qcmult_le_compat_r; [exact K|now apply Qclt_le_weak].
  - rewrite same_spread by exact D. unfold Qcdiv. apply Qcmult_0_l.
Qed.
Lemma div_pos p q : (Q2Qc 0 < p)%Qc -> (Q2Qc 0 < q)%Qc -> (Q2Qc 0 < p / q)%Qc.
Proof.
  intros Hp Hq. destruct (Qclt_le_dec (Q2Qc 0) (p / q)%Qc) as [|K]; [assumption|exfalso].
  assert (p <= Q2Qc 0)%Qc as K'; [|exact (Qcle_not_lt _ _ K' Hp)]. replace p with (p / q * q)%Qc by (field; now apply pos_ne). rewrite <- (Qcmult_0_l q). apply Qcmult_le_compat_r; [exact K|now apply Qclt_le_weak].
Qed.
Lemma positive_fin q : (Q2Qc 0 <= q)%Qc -> positive_part (Fin q) = Fin q.
Proof.
  intros H. unfold positive_part, zero. rewrite ltb_fin. cbn [is_nan orb]. destruct (qc_ltb (Q2Qc 0) q) eqn:E; [reflexivity|]. cbn [orb]. f_equal. apply qc_ltb_ge in E. now apply Qcle_antisym.
Qed.
Lemma add_pos p q : (Q2Qc 0 < p)%Qc -> (Q2Qc 0 <= q)%Qc -> (Q2Qc 0 < p + q)%Qc.
Proof. intros H1 H2. apply Qclt_le_trans with p; [exact H1|]. rewrite <- (Qcplus_0_r p) at 1. apply Qcplus_le_compat; [apply Qcle_refl|exact H2]. Qed.
Lemma sq_pos p : (Q2Qc 0 < p)%Qc -> (Q2Qc 0 < p * p)%Qc.
Proof. intros H. rewrite <- (Qcmult_0_l p) at 1. now apply Qcmult_lt_compat_r. Qed.
Lemma num_abs_div x s : ltb zero s = true -> num_abs (div (Fin x) s) = div (num_abs (Fin x)) s.
Proof.
  unfold zero. destruct s as [q| | |]; cbn [ltb]; intros H; try discriminate.
  - apply qc_ltb_lt in H. pose proof (pos_ne _ H) as Hne. rewrite div_fin by exact Hne. unfold num_abs, zero. rewrite !ltb_fin. destruct (qc_ltb x (Q2Qc 0)) eqn:E.
    + apply qc_ltb_lt in E. assert (qc_ltb (x / q)%Qc (Q2Qc 0) = true) as ->.
      { apply qc_ltb_lt. assert (Q2Qc 0 < - x / q)%Qc as K. { apply div_pos; [|exact H]. apply Qclt_minus_iff in E. replace (Q2Qc 0 + - x)%Qc with (- x)%Qc in E by ring. exact E. }
        apply Qclt_minus_iff. replace (Q2Qc 0 + - (x / q))%Qc with (- x / q)%Qc by (field; exact Hne). exact K. }
      cbn [neg]. rewrite div_fin by exact Hne. f_equal. field. exact Hne.
    + apply qc_ltb_ge in E. assert (qc_ltb (x / q)%Qc (Q2Qc 0) = false) as ->; [|now rewrite div_fin]. apply qc_ltb_ge. now apply Qc_div_nonneg.
  - unfold num_abs, zero. cbn [div]. rewrite !ltb_fin. destruct (qc_ltb x (Q2Qc 0)); reflexivity.
Qed.
Lemma counted_le N_fac l : (forall f, N_fac = Some f -> 0 < f) -> 1 < counted N_fac l -> 1 < zlen l.
Proof.
  intros Hf. destruct N_fac as [f|]; [|auto]. cbn. specialize (Hf f eq_refl). intros H. assert (0 <= zlen l) by (unfold zlen; lia). pose proof (Z.div_le_upper_bound (zlen l) f (zlen l) Hf). nia.
Qed.
Lemma differ_two l : differ l -> 1 < zlen l.
Proof.
  intros (p & q & Hp & Hq & Hne). destruct l as [|x [|y l]]; [destruct Hp| |unfold zlen; cbn [length]; lia]. destruct Hp as [->|[]], Hq as [->|[]]. congruence.
Qed.

Section Points.
Context (sqrt : num -> num) (cdf ppf : num -> num -> num) (Hroot : root_sign sqrt) (alpha : num).

Lemma welch_spec Nx_fac Ny_fac l m : (forall f, Nx_fac = Some f -> 0 < f) -> (forall f, Ny_fac = Some f -> 0 < f) ->
  welch_test sqrt cdf ppf alpha Nx_fac Ny_fac l m (welch sqrt cdf ppf alpha Nx_fac Ny_fac (sample_of l) (sample_of m)).
Proof.
  intros Hx Hy. unfold welch, sample_of. rewrite !effective_spec, !one_ltb by assumption. unfold welch_test.
  pose proof (counted_le Nx_fac l Hx) as Cx. pose proof (counted_le Ny_fac m Hy) as Cy.
  set (n := counted Nx_fac l) in *. set (k := counted Ny_fac m) in *. clearbody n k.
  destruct (Z.ltb_spec 1 (zlen l)) as [L1|L1]; [destruct (Z.ltb_spec 1 (zlen m)) as [M1|M1]|].
  - cbn [andb]. rewrite !sample_variance, !sample_mean by (assumption || now apply zlen_ne). rewrite sub_fin.
    assert (Q2Qc 0 <= variance l)%Qc as Vl by (apply variance_nonneg; now apply zlen_2). assert (Q2Qc 0 <= variance m)%Qc as Vm by (apply variance_nonneg; now apply zlen_2).
    rewrite !positive_fin by assumption.
    destruct (Z.ltb_spec 1 n) as [N1|N1]; [destruct (Z.ltb_spec 1 k) as [K1|K1]|]; cbn [andb].
    + rewrite !minus_one, !div_fin' by lia. change (variance l / Q2Qc (inject_Z n))%Qc with (mean_variance n l). change (variance m / Q2Qc (inject_Z k))%Qc with (mean_variance k m).
      rewrite !mul_fin. rewrite !div_fin' by lia. cbn [add]. rewrite mul_fin.
      assert (Q2Qc 0 <= mean_variance n l)%Qc as Wl by (apply Qc_div_nonneg; [exact Vl|apply qz_pos; lia]). assert (Q2Qc 0 <= mean_variance k m)%Qc as Wm by (apply Qc_div_nonneg; [exact Vm|apply qz_pos; lia]).
      assert (Q2Qc 0 <= mean_variance n l + mean_variance k m)%Qc as Ws by (rewrite <- (Qcplus_0_r (Q2Qc 0)); now apply Qcplus_le_compat).
      assert (differ l -> Q2Qc 0 < mean_variance n l)%Qc as Pl by (intros D; apply div_pos; [now apply variance_differ|apply qz_pos; lia]).
      assert (differ m -> Q2Qc 0 < mean_variance k m)%Qc as Pm by (intros D; apply div_pos; [now apply variance_differ|apply qz_pos; lia]).
      assert (~ differ l -> mean_variance n l = Q2Qc 0) as Zl by (intros D; unfold mean_variance; rewrite (proj2 (variance_differ l L1) D); unfold Qcdiv; apply Qcmult_0_l).
      assert (~ differ m -> mean_variance k m = Q2Qc 0) as Zm by (intros D; unfold mean_variance; rewrite (proj2 (variance_differ m M1) D); unfold Qcdiv; apply Qcmult_0_l).
      set (v := mean_variance n l) in *. set (w := mean_variance k m) in *. clearbody v w.
      assert (forall a b, 1 < b -> (Q2Qc 0 <= a * a / Q2Qc (inject_Z (b - 1)))%Qc) as Hq by (intros a b Hb; apply Qc_div_nonneg; [apply square_nonneg|apply qz_pos; lia]).
      assert (forall a b, 1 < b -> (Q2Qc 0 < a)%Qc -> (Q2Qc 0 < a * a / Q2Qc (inject_Z (b - 1)))%Qc) as Hq' by (intros a b Hb Ha; apply div_pos; [now apply sq_pos|apply qz_pos; lia]).
      set (den := (v * v / Q2Qc (inject_Z (n - 1)) + w * w / Q2Qc (inject_Z (k - 1)))%Qc).
      assert (differ l \/ differ m -> Q2Qc 0 < den /\ Q2Qc 0 < v + w)%Qc as Hden.
      { intros [D|D]; unfold den.
        - split; [apply add_pos; auto|apply add_pos; auto].
        - rewrite !(Qcplus_comm _ (w * w / _)%Qc), (Qcplus_comm v w). split; apply add_pos; auto. }
      destruct (differ_ltb l) as [D1 D2]. destruct (differ_ltb m) as [D3 D4].
      assert ({differ l \/ differ m} + {~ (differ l \/ differ m)}) as [D|D].
      { destruct (qc_ltb (Q2Qc 0) (spread l)); [left; left; now apply D1|]. destruct (qc_ltb (Q2Qc 0) (spread m)); [left; right; now apply D3|]. right. intros [K|K]; [now apply D2|now apply D4]. }
      * destruct (Hden D) as [P1 P2]. assert (ltb zero (Fin den) = true) as -> by (now apply qc_ltb_lt). cbv iota.
        rewrite (proj2 (Hroot _ Ws) P2). cbn [andb]. rewrite div_fin by (now apply pos_ne). cbn [t_d t_df t_p t_ci]. split; [reflexivity|]. split; [|intros K; exfalso; apply K; auto].
        intros _. repeat split.
      * assert (v = Q2Qc 0) as Ev by (apply Zl; tauto). assert (w = Q2Qc 0) as Ew by (apply Zm; tauto). assert (den = Q2Qc 0) as -> by (unfold den; rewrite Ev, Ew; unfold Qcdiv; ring).
        change (ltb zero (Fin (Q2Qc 0))) with false. cbn [andb t_d t_df t_p t_ci]. split; [reflexivity|]. split; [tauto|]. intros _. repeat split.
    + change (ltb zero zero) with false. cbn [andb t_d t_df t_p t_ci]. split; [reflexivity|]. split; [intros (_ & K & _); lia|]. intros _. repeat split.
    + change (ltb zero zero) with false. cbn [andb t_d t_df t_p t_ci]. split; [reflexivity|]. split; [intros (K & _); lia|]. intros _. repeat split.
  - destruct (Z.ltb_spec 1 k) as [K1|K1]; [specialize (Cy K1); lia|]. cbn [andb]. rewrite !andb_false_r. change (ltb zero zero) with false. cbn [andb t_d t_df t_p t_ci].
    split; [intros _ K; apply zlen_2 in K; lia|]. split; [intros (_ & K & _); lia|]. intros _. repeat split.
  - destruct (Z.ltb_spec 1 n) as [N1|N1]; [specialize (Cx N1); lia|]. cbn [andb]. change (ltb zero zero) with false. cbn [andb t_d t_df t_p t_ci].
    split; [intros K; apply zlen_2 in K; lia|]. split; [intros (K & _); lia|]. intros _. repeat split.
Qed.

Lemma paired_test_spec N_fac l : (forall f, N_fac = Some f -> 0 < f) -> paired_result sqrt cdf ppf alpha N_fac l (paired_test sqrt cdf ppf alpha N_fac (sample_of l)).
Proof.
  intros Hf. unfold paired_test, sample_of. rewrite effective_spec, !one_ltb, minus_one by assumption. unfold paired_result.
  pose proof (counted_le N_fac l Hf) as Cx. set (n := counted N_fac l) in *. clearbody n.
  destruct (Z.ltb_spec 1 (zlen l)) as [L1|L1].
  - rewrite sample_variance, sample_mean by (assumption || now apply zlen_ne). assert (Q2Qc 0 <= variance l)%Qc as Vl by (apply variance_nonneg; now apply zlen_2).
    rewrite positive_fin by assumption. destruct (Z.ltb_spec 1 n) as [N1|N1].
    + rewrite div_fin' by lia. set (e := (variance l / Q2Qc (inject_Z (n - 1)))%Qc). assert (Q2Qc 0 <= e)%Qc as We by (apply Qc_div_nonneg; [exact Vl|apply qz_pos; lia]).
      destruct (differ_ltb l) as [D1 D2]. destruct (variance_differ l L1) as [V1 V2].
      assert ({differ l} + {~ differ l}) as [D|D] by (destruct (qc_ltb (Q2Qc 0) (spread l)); [left; now apply D1|right; now apply D2]).
      * assert (Q2Qc 0 < e)%Qc as Pe by (apply div_pos; [now apply V1|apply qz_pos; lia]). rewrite (proj2 (Hroot _ We) Pe). cbn [t_d t_df t_p t_ci]. repeat split; tauto.
      * assert (e = Q2Qc 0) as Ee by (unfold e; rewrite (V2 D); unfold Qcdiv; apply Qcmult_0_l).
        assert (ltb zero (sqrt (Fin e)) = false) as ->. { destruct (ltb zero (sqrt (Fin e))) eqn:E; [|reflexivity]. apply (Hroot _ We) in E. rewrite Ee in E. discriminate E. }
        cbn [t_d t_df t_p t_ci]. repeat split; tauto.
    + change (ltb zero zero) with false. cbn [t_d t_df t_p t_ci]. repeat split; intros; lia.
  - destruct (Z.ltb_spec 1 n) as [N1|N1]; [specialize (Cx N1); lia|]. change (ltb zero zero) with false. cbn [t_d t_df t_p t_ci].
    split; [intros K; apply zlen_2 in K; lia|]. repeat split; intros; lia.
Qed.

Lemma zero_point_spec N_fac l : (forall f, N_fac = Some f -> 0 < f) -> mean_test sqrt cdf ppf alpha N_fac l (zero_point sqrt cdf ppf alpha N_fac (sample_of l)).
Proof.
  intros Hf. unfold zero_point, sample_of. rewrite effective_spec, !minus_one by assumption. unfold mean_test. rewrite count_ltb'. destruct l as [|q0 l0] eqn:El.
  { split; [congruence|]. intros K. cbn in K. lia. }
  rewrite <- El. assert (l <> []) as Hne by (rewrite El; discriminate). clear El q0 l0. rewrite sample_mean by exact Hne. cbn [z_m z_p z_ci]. split; [reflexivity|].
  intros L1 N1. apply zlen_2 in L1. rewrite <- (minus_one (zlen l)), sample_variance by exact L1. set (n := counted N_fac l) in *. rewrite div_fin' by lia. change (variance l / Q2Qc (inject_Z n))%Qc with (mean_variance n l).
  split; [reflexivity|]. intros D. assert (Q2Qc 0 < mean_variance n l)%Qc as Pe by (apply div_pos; [now apply variance_differ|apply qz_pos; lia]).
  pose proof (proj2 (Hroot _ (Qclt_le_weak _ _ Pe)) Pe) as E. rewrite E. unfold p_value. rewrite num_abs_div by exact E. reflexivity.
Qed.
End Points.

(** ** the sums *)
Lemma dropped_incl {A} (g : list bool) : forall l : list A, incl (dropped g l) l.
Proof.
  induction g as [|[] g IH]; intros [|x l] y Hy; cbn in *; try tauto; auto.
  - right. now apply (IH l).
  - destruct Hy as [->|Hy]; [now left|right; now apply (IH l)].
Qed.
Lemma aranges_selection (outer : list axis) : (forall a, In a outer -> 0 < axis_len a) ->
  Forall2 selection outer (map (fun a => arange 0 (axis_len a) 1) outer) /\ map zlen (map (fun a => arange 0 (axis_len a) 1) outer) = map axis_len outer.
Proof.
  intros H. split.
  - induction outer as [|a l IH]; constructor; [|apply IH; intros b Hb; apply H; now right].
    assert (0 < axis_len a) as Ha by (apply H; now left). split; [|split].
    + intros E. pose proof (zlen_arange1 0 (axis_len a) ltac:(lia)) as K. rewrite E in K. cbn in K. lia.
    + apply Forall_forall. intros x Hx. apply IntgrProofs.In_arange1 in Hx. lia.
    + apply increasing_arange.
  - rewrite map_map. apply map_ext_in. intros a Ha. rewrite zlen_arange1; [lia|]. specialize (H a Ha). lia.
Qed.

Section Sample.
Context (env : axenv) (Henv : env_ok env) (MAX : Z) (HMAX : 1 <= MAX) (junk : list Z -> num) (x : var axis num) (D : list Z -> num) (Hx : responds env x D)
  (Hgood : Forall good_axis (var_axes x)) (Hfin : no_infinities x D) (indices : list nat) (Hred : reducible x indices) (Hlen : forall a, In a (var_axes x) -> 0 < axis_len a).
Notation K := (kept_axes (var_axes x) indices).
Lemma sample_spec : exists r, sample_sums env junk MAX x indices K = Some r /\ shape r = map axis_len K /\
  forall k, position (map axis_len K) k -> val r k = sample_of (numbers (fib x D indices k)).
Proof.
  assert (forall a, In a K -> 0 < axis_len a) as HK by (intros a Ha; apply Hlen; rewrite kept_dropped in Ha; eapply dropped_incl, Ha).
  destruct (aranges_selection K HK) as [HL EL].
  assert (forall k, position (map axis_len K) k -> position (dropped (gone_axes (length (var_axes x)) indices) (var_shape x)) k) as Hpos.
  { intros k Hk. unfold var_shape. rewrite dropped_map, <- kept_dropped. exact Hk. }
  assert (forall k, position (dropped (gone_axes (length (var_axes x)) indices) (var_shape x)) k -> measured (fib x D indices k)) as Hm by (intros k Hk; now apply (fib_measured junk x D indices Hfin)).
  destruct (nansum_answer env Henv MAX HMAX junk x D Hx Hgood indices Hred (fun k Hk => measured_summable _ (Hm k Hk)) _ HL) as (r1 & E1 & S1 & V1).
  destruct (nan_answer env Henv MAX HMAX junk x D Hx Hgood indices Hred (fun v => mul v v) (fun a => Some (np_reduce np_nansum (map_arr (fun v => mul v v) a) indices))
              (fun k Hk => square_summable _) (fun a => eq_refl) _ HL) as (r2 & E2 & S2 & V2).
  destruct (nan_answer env Henv MAX HMAX junk x D Hx Hgood indices Hred not_nan (fun a => Some (np_reduce np_nansum (map_arr not_nan a) indices))
              (fun k Hk => not_nan_summable _) (fun a => eq_refl) _ HL) as (r3 & E3 & S3 & V3).
  unfold sample_sums. rewrite Nat.eqb_refl. cbn [negb]. rewrite full_view_eq. unfold nansumsq_view, count_view. rewrite E1, E2, E3. rewrite EL in *.
  eexists. split; [reflexivity|]. cbn [shape val]. split; [exact S1|]. intros k Hk. pose proof (Hm k (Hpos k Hk)) as Hmk.
  rewrite (V1 k Hk), (V2 k Hk), (V3 k Hk). rewrite !(gather_axis_aranges (V:=num) junk K k Hk).
  unfold sample_of. f_equal; [now apply nansum_measured|now apply nansumsq_measured|]. rewrite count_measured by exact Hmk. reflexivity.
Qed.
End Sample.
