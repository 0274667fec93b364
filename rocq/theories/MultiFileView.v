(** Lemmas for variables that are spread over many files: which files are opened, and the whole request. *)
From Coq Require Import ZArith List Bool Lia ZifyBool Permutation QArith_base.
From Verif Require Import CalModel CalSpec CalProofs TimeSearchModel TimeSearchSpec TimeSearchProofs TimeMapProofs TimeDateProofs SortSpec IndexModel IndexSpec IndexProofs ArrModel ArrProofs
  ViewModel ViewSpec ViewProofs AxisModel AxisSpec AxisProofs VarOpsModel VarOpsSpec VarOpsProofs NumModel NumProofs ReduceModel ReduceSpec ArgProofs StencilModel StencilSpec StencilProofs IntgrProofs
  RespondProofs ChunkProofs LoopProofs BlockProofs FlattenProofs InterpView SmoothModel SmoothView WindowProofs CompositeProofs ConcatModel ConcatSpec ConcatProofs ConcatAxis ConcatVar ClimModel ClimSpec ClimSum ClimAxis ClimChunk ClimView
  MultiFileModel MultiFileSpec MultiFileRead MultiFileProofs.
Import ListNotations.
Open Scope Z_scope.
Notation zlen := IndexSpec.zlen.
Notation znth := ArrModel.znth.

(** *** which file a time belongs to *)
Section Own.
Context (faxis : taxis) (Gf : good_axis (Time faxis)) (Hord : in_order faxis).
Notation cal := (t_cal faxis).
Notation secs := (CalProofs.A cal).
Definition val_of (d : date) : Q := (secs d - secs (get_dates (t_start faxis))) # unitfactor (t_units faxis).

Lemma start_fine : good_start cal (get_dates (t_start faxis)).
Proof. apply Gf. Qed.
Lemma moment_valid (s : taxis) i : t_cal s = cal -> good_axis (Time s) -> 0 <= i < zlen (t_dates s) -> valid_date cal (moment s i).
Proof.
  intros Hc (_ & Hv & _) Hi. unfold moment. apply masked_valid. rewrite <- Hc. apply (proj1 (Forall_forall _ _) Hv). apply nth_In. unfold zlen in Hi. lia.
Qed.
Lemma value_at d k : valid_date cal (get_dates (mask_date k d)) -> date_as_val cal (t_start faxis) (t_units faxis) (mask_date k d) = Some (val_of (get_dates (mask_date k d))).
Proof. intros Hv. unfold date_as_val. rewrite (dav_A _ _ _ start_fine (valid_good _ _ Hv)). reflexivity. Qed.
Lemma file_value j y : elem (t_vals faxis) j y -> 0 <= j < zlen (t_dates faxis) /\ y = val_of (moment faxis j).
Proof.
  intros Hy. pose proof Gf as (_ & Hv & _ & Hm & _). pose proof (time_length _ Gf) as El. pose proof (elem_range _ _ _ Hy) as Hr.
  assert (0 <= j < zlen (t_dates faxis)) as Hj by (unfold zlen in *; lia). split; [exact Hj|].
  destruct (nth_error (t_dates faxis) (Z.to_nat j)) as [d|] eqn:Ed; [|apply nth_error_None in Ed; unfold zlen in Hj; lia].
  assert (nth (Z.to_nat j) (t_dates faxis) date0 = d) as En by (apply nth_error_nth; exact Ed).
  pose proof (f_equal (fun l => nth_error l (Z.to_nat j)) Hm) as E. cbv beta in E. rewrite !nth_error_map, Ed in E. destruct Hy as [_ Hy]. rewrite Hy in E. cbn [option_map] in E. injection E as E.
  unfold axis_value in E. pose proof (moment_valid faxis j eq_refl Gf Hj) as Hvm. unfold moment in *. rewrite En in *. rewrite (value_at d _ Hvm) in E. injection E as <-. reflexivity.
Qed.
Lemma value_le a b : valid_date cal a -> valid_date cal b -> Qle_bool (val_of a) (val_of b) = true <-> ~ earlier b a.
Proof.
  intros Ha Hb. rewrite Qle_bool_iff, (earlier_iff _ _ _ Hb Ha). unfold val_of, Qle. cbn. nia.
Qed.
Lemma own_index d k : valid_date cal d -> own_file faxis d k -> file_index faxis (val_of d) = k.
Proof.
  intros Hd (Hk & Hn & Hl). unfold file_index. rewrite (filter_count _ _ (k + 1)); [lia|pose proof (time_length _ Gf) as E; unfold zlen in *; lia|].
  intros j y Hy. destruct (file_value j y Hy) as [Hj ->]. pose proof (moment_valid faxis j eq_refl Gf Hj) as Hvj. pose proof (moment_valid faxis k eq_refl Gf Hk) as Hvk.
  destruct (Z.ltb_spec j (k + 1)) as [H|H].
  - apply (value_le _ _ Hvj Hd). intros He. apply Hn. destruct (Z.eq_dec j k) as [<-|E]; [exact He|]. pose proof (Hord j k ltac:(lia) ltac:(lia)) as Hjk.
    apply (earlier_iff _ _ _ Hd Hvk). apply (earlier_iff _ _ _ Hd Hvj) in He. apply (earlier_iff _ _ _ Hvj Hvk) in Hjk. lia.
  - apply not_true_is_false. intros H'. apply (value_le _ _ Hvj Hd) in H'. apply H'. apply Hl. lia.
Qed.
Lemma index_before d : valid_date cal d -> (forall j, 0 <= j < zlen (t_dates faxis) -> earlier d (moment faxis j)) -> file_index faxis (val_of d) = -1.
Proof.
  intros Hd H. unfold file_index. rewrite (filter_count _ _ 0); [lia|pose proof (zlen_nonneg (t_vals faxis)); lia|].
  intros j y Hy. destruct (file_value j y Hy) as [Hj ->]. pose proof (moment_valid faxis j eq_refl Gf Hj) as Hvj.
  destruct (Z.ltb_spec j 0); [lia|]. apply not_true_is_false. intros H'. apply (value_le _ _ Hvj Hd) in H'. exact (H' (H j Hj)).
Qed.
End Own.

Section View.
Context (env : axenv) (Henv : env_ok env) (lexsort : list (list Z) -> list Z) (Hlex : lexsort_ok lexsort) (junk : list Z -> num).
Notation ops := (axis_ops env).
Notation var := (ViewModel.var axis num).
Context (A : list axis) (Hsep : separate A) (ti : nat) (t : taxis) (Ht : nth_error A ti = Some (Time t)) (Hgood : good_axis (Time t))
        (Honly : forall i s, nth_error A i = Some (Time s) -> i = ti).
Context (files : list (option var)) (faxis : taxis) (Gf : good_axis (Time faxis)) (Hfl : length files = length (t_dates faxis)) (Hord : in_order faxis) (Hcal : t_cal t = t_cal faxis).
Context (contents : Z -> taxis * (list Z -> num))
        (Hin : forall k x, elem files k (Some x) -> in_file env A ti t faxis k x (fst (contents k)) (snd (contents k))).
Context (K : list (list Z)) (HK : Forall2 selection A K).
Notation Kt := (nth ti K []).
Notation found := (found ti t K).
Notation place := (wrapped (zlen files)).

(** the files that are opened *)
Definition index_of_time (i : Z) : Z := file_index faxis (val_of faxis (moment t (znth Kt i))).
Definition indices : list Z := map index_of_time (arange 0 (zlen Kt) 1).
Definition opened : list Z := map (znth indices) (newfile_pos indices).

Lemma Kt_sel : selection (Time t) Kt.
Proof. exact (Kt_choice A ti t Ht K HK). Qed.
Lemma indices_ne : indices <> [].
Proof. destruct Kt_sel as (Hne & _). unfold indices. intros E. apply map_eq_nil in E. apply Hne. rewrite <- (znth_arange Kt), E. reflexivity. Qed.
Lemma zlen_indices : zlen indices = zlen Kt.
Proof. unfold indices. rewrite zlen_map. apply zlen_arange. apply zlen_nonneg. Qed.
Lemma opened_iff k : In k opened <-> exists i, 0 <= i < zlen Kt /\ k = index_of_time i.
Proof.
  destruct (newfile_pos_spec indices indices_ne) as [N1 N2]. unfold opened. split.
  - intros H. apply in_map_iff in H as (p & <- & Hp). pose proof (proj1 (Forall_forall _ _) N1 p Hp) as Hr. cbn in Hr. rewrite zlen_indices in Hr. exists p. split; [exact Hr|].
    unfold indices. apply znth_elem. apply elem_map. exists p. split; [apply elem_arange01; lia|reflexivity].
  - intros (i & Hi & ->). destruct (N2 (index_of_time i)) as (p & H1 & H2).
    + unfold indices. apply in_map. apply In_arange1. lia.
    + apply in_map_iff. exists p. auto.
Qed.

Lemma multi_view_runs : exists times, sliced (Time t) Kt (Time times) /\
  multi_view env lexsort junk files faxis (view_of_inds A K) =
  bind (run env lexsort junk A ti files faxis K times opened (Some (Arr (map zlen K) (fun _ => NaN), repeat false (length Kt))))
       (fun '(out, handled) => if forallb (fun h => h) handled then Some out else None).
Proof.
  pose proof Kt_sel as (Hne & Hr & Hi). pose proof (sliced_self env Henv (Time t) Kt Hgood Hr) as Hsl. pose proof (take_time env (Time t) Kt) as Htt.
  pose proof (Kt_at A ti t Ht K HK) as HKt.
  assert (subaxis env (view_of_inds A K) ti = Some (axis_take env (Time t) Kt)) as Esub.
  { unfold subaxis. cbn [vaxes vslices view_of_inds]. rewrite Ht. cbn [bind]. rewrite nth_error_map, HKt. cbn [option_map bind]. rewrite np_index_simplify by exact Hr. reflexivity. }
  destruct (axis_take env (Time t) Kt) as [| |times] eqn:Etake; try (destruct Htt; fail). exists times. split; [exact Hsl|].
  unfold multi_view. cbn [vaxes view_of_inds]. rewrite (time_index_at A ti t Ht Honly). cbn [bind]. rewrite Esub. cbn [bind].
  pose proof Hsl as (S1 & S2 & S3 & S4 & S5 & S6 & S7). pose proof (times_len ti t Hgood K times Hsl) as Hlt.
  assert (reltime times (t_start faxis) (t_units faxis) = Some (map (fun i => val_of faxis (moment t (znth Kt i))) (arange 0 (zlen Kt) 1))) as ->.
  { unfold reltime. rewrite S6, S2, S5, Hcal. unfold pick. rewrite map_map.
    assert (map (fun i => val_of faxis (moment t (znth Kt i))) (arange 0 (zlen Kt) 1) = map (fun i => val_of faxis (moment t i)) Kt) as ->.
    { rewrite <- (map_map (znth Kt) (fun i => val_of faxis (moment t i))), znth_arange. reflexivity. }
    assert (forall l, (forall i, In i l -> In i Kt) -> sequence (map (fun i => date_as_val (t_cal faxis) (t_start faxis) (t_units faxis) (mask_date (t_mask t) (nth (Z.to_nat i) (t_dates t) date0))) l) = Some (map (fun i => val_of faxis (moment t i)) l)) as HH; [|apply HH; auto].
    induction l as [|i l IH]; intros Hl; [reflexivity|]. cbn [map sequence]. rewrite value_at; [|exact Gf|].
    - rewrite IH by (intros; apply Hl; now right). reflexivity.
    - apply (moment_valid faxis t i Hcal Hgood). apply (proj1 (Forall_forall _ _) Hr). apply Hl. now left. }
  cbn [bind]. cbv zeta. rewrite map_map. change (map (fun x => file_index faxis (val_of faxis (moment t (znth Kt x)))) (arange 0 (zlen Kt) 1)) with indices.
  assert (length (t_dates times) = length Kt) as -> by (unfold zlen in Hlt; lia). change (vshape (view_of_inds A K)) with (map zlen K). f_equal.
  unfold opened, run. destruct (newfile_pos_spec indices indices_ne) as [N1 _]. generalize (Some (Arr (map zlen K) (fun _ : list Z => NaN), repeat false (length Kt))).
  induction N1 as [|p ps Hp _ IH]; intros s; [reflexivity|]. cbn [map fold_left]. rewrite <- IH. f_equal. destruct s as [[o h]|]; [|reflexivity]. cbn [bind].
  assert (TimeSearchModel.znth indices p = Some (znth indices p)) as ->; [|reflexivity].
  unfold TimeSearchModel.znth. destruct (Z.ltb_spec p 0); [lia|]. apply (proj2 (elem_znth _ _ Hp)).
Qed.

Lemma start_from times : sliced (Time t) Kt (Time times) -> from_files ti t files contents K (Arr (map zlen K) (fun _ : list Z => NaN), repeat false (length Kt)).
Proof.
  intros _. split; [reflexivity|]. split; [apply repeat_length|]. intros p Hp Hh. cbn [snd] in Hh. exfalso.
  assert (forall n m, nth n (repeat false m) false = false) as R by (intros n m; revert n; induction m as [|m IH]; intros [|n]; cbn; auto). rewrite R in Hh. discriminate.
Qed.

Lemma all_handled (h : list bool) : length h = length Kt -> forallb (fun h => h) h = true <-> forall i, 0 <= i < zlen Kt -> nth (Z.to_nat i) h false = true.
Proof.
  intros Hl. rewrite forallb_forall. split.
  - intros H i Hi. apply H. apply nth_In. unfold zlen in Hi. lia.
  - intros H b Hb. apply (In_nth _ _ false) in Hb as (n & Hn & <-). specialize (H (Z.of_nat n)). rewrite Nat2Z.id in H. apply H. unfold zlen. lia.
Qed.

(** whatever is returned comes from files that hold the times in question *)
Theorem view_from r : multi_view env lexsort junk files faxis (view_of_inds A K) = Some r ->
  shape r = map zlen K /\
  (forall p, position (map zlen K) p -> exists k x j, elem files k (Some x) /\ found (fst (contents k)) (nth ti p 0) j /\ val r p = snd (contents k) (set_at (gather K p) ti j)) /\
  (forall i, 0 <= i < zlen Kt -> exists x, elem files (place (index_of_time i)) (Some x)).
Proof.
  intros E. destruct multi_view_runs as (times & Hsl & E1). rewrite E1 in E.
  destruct (run env lexsort junk A ti files faxis K times opened _) as [[out h]|] eqn:Er; [|discriminate]. cbn [bind] in E. destruct (forallb (fun h => h) h) eqn:Eh; [|discriminate]. injection E as <-.
  pose proof (run_from env Henv lexsort Hlex junk A ti t Ht Hgood Honly files faxis Gf Hfl contents Hin K HK times Hsl opened _ _ (start_from times Hsl) Er) as (F1 & F2 & F3). cbn [fst snd] in *.
  split; [exact F1|]. split.
  - intros p Hp. apply F3; [exact Hp|]. apply (proj1 (all_handled h F2) Eh). exact (time_pos A ti t Ht K HK p Hp).
  - intros i Hi. destruct (present_dec env A ti t Honly files faxis Hfl contents Hin times (place (index_of_time i))) as [H|H]; [exact H|]. exfalso.
    apply (run_missing env lexsort junk A ti t Honly files faxis Hfl contents Hin K times opened (index_of_time i) _ _ (proj2 (opened_iff _) (ex_intro _ i (conj Hi eq_refl))) H Er).
Qed.

Theorem view_tidy : (forall i k k' x x' j j', elem files k (Some x) -> elem files k' (Some x') -> found (fst (contents k)) i j -> found (fst (contents k')) i j' -> k = k') ->
  (forall i, 0 <= i < zlen Kt -> exists x j, elem files (place (index_of_time i)) (Some x) /\ found (fst (contents (place (index_of_time i)))) i j) ->
  exists r, multi_view env lexsort junk files faxis (view_of_inds A K) = Some r.
Proof.
  intros Hone Hhold. destruct multi_view_runs as (times & Hsl & E1). rewrite E1.
  destruct (run_tidy env Henv lexsort Hlex junk A ti t Ht Hgood Honly files faxis Gf Hfl contents Hin K HK times Hsl Hone opened) with (s := (Arr (map zlen K) (fun _ : list Z => NaN), repeat false (length Kt))) as ([out h] & Er & (F1 & F2 & F3) & Hh).
  - intros k Hk. apply opened_iff in Hk as (i & Hi & ->). destruct (Hhold i Hi) as (x & j & H1 & H2). exists x, i, j. auto.
  - exact (start_from times Hsl).
  - rewrite Er. cbn [bind fst snd] in *. assert (forallb (fun h => h) h = true) as ->; [|exists out; reflexivity].
    apply (all_handled h F2). intros i Hi. apply Hh; [exact Hi|]. right. destruct (Hhold i Hi) as (x & j & H1 & H2). exists (index_of_time i), j. split; [|exact H2]. apply opened_iff. exists i. auto.
Qed.
End View.
