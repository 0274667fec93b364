(** Lemmas for variables that are spread over many files: the loop over the files. *)
From Coq Require Import ZArith List Bool Lia ZifyBool Permutation QArith_base.
From Verif Require Import CalModel CalSpec CalProofs TimeSearchModel TimeSearchSpec TimeSearchProofs TimeMapProofs TimeDateProofs SortSpec IndexModel IndexSpec IndexProofs ArrModel ArrProofs
  ViewModel ViewSpec ViewProofs AxisModel AxisSpec AxisProofs VarOpsModel VarOpsSpec VarOpsProofs NumModel NumProofs ReduceModel ReduceSpec ArgProofs StencilModel StencilSpec StencilProofs IntgrProofs
  RespondProofs ChunkProofs LoopProofs BlockProofs FlattenProofs InterpView SmoothModel SmoothView WindowProofs CompositeProofs ConcatModel ConcatSpec ConcatProofs ConcatAxis ConcatVar ClimModel ClimSpec ClimSum ClimAxis ClimChunk ClimView
  MultiFileModel MultiFileSpec MultiFileRead.
Import ListNotations.
Open Scope Z_scope.
Notation zlen := IndexSpec.zlen.
Notation znth := ArrModel.znth.

Lemma filter_count {X} (f : X -> bool) : forall l k, 0 <= k <= zlen l -> (forall j y, elem l j y -> f y = (j <? k)) -> zlen (filter f l) = k.
Proof.
  induction l as [|y l IH]; intros k Hk H.
  - cbn in *. unfold zlen in *. cbn in *. lia.
  - cbn [filter]. rewrite (H 0 y) by (split; [lia|reflexivity]). assert (forall k', 0 <= k' <= zlen l -> (forall j z, elem l j z -> f z = (j <? k')) -> zlen (filter f l) = k') as IH' by exact IH.
    assert (forall j z, elem l j z -> f z = (j + 1 <? k)) as H' by (intros j z Hz; apply H; apply elem_cons; right; split; [pose proof (elem_range _ _ _ Hz); lia|]; replace (j + 1 - 1) with j by lia; exact Hz).
    rewrite zlen_cons in Hk. destruct (Z.ltb_spec 0 k) as [Hp|Hp].
    + rewrite zlen_cons. rewrite (IH' (k - 1)); [lia|lia|]. intros j z Hz. rewrite (H' j z Hz). lia.
    + rewrite (IH' 0); [lia|pose proof (zlen_nonneg l); lia|]. intros j z Hz. rewrite (H' j z Hz). pose proof (elem_range _ _ _ Hz). lia.
Qed.

(** the positions at which a new file is opened *)
Lemma newfile_pos_spec ind : ind <> [] -> Forall (fun p => 0 <= p < zlen ind) (newfile_pos ind) /\ forall k, In k ind -> exists p, In p (newfile_pos ind) /\ znth ind p = k.
Proof.
  intros Hne. unfold newfile_pos. assert (0 < zlen ind) as Hpos by (destruct ind; [congruence|]; unfold zlen; cbn; lia). split.
  - constructor; [lia|]. apply Forall_forall. intros p Hp. apply filter_In in Hp as [Hp _]. apply In_arange1 in Hp. lia.
  - assert (forall n, Z.of_nat n < zlen ind -> exists p, In p (0 :: filter (fun p => negb (znth ind (p - 1) =? znth ind p)) (arange 1 (zlen ind) 1)) /\ znth ind p = znth ind (Z.of_nat n)) as H.
    { induction n as [|n IH]; intros Hn; [exists 0; split; [now left|reflexivity]|]. destruct IH as (p & H1 & H2); [lia|].
      destruct (Z.eqb_spec (znth ind (Z.of_nat n)) (znth ind (Z.of_nat (S n)))) as [E|E]; [exists p; split; [exact H1|now rewrite H2]|].
      exists (Z.of_nat (S n)). split; [|reflexivity]. right. apply filter_In. split; [apply In_arange1; lia|]. replace (Z.of_nat (S n) - 1) with (Z.of_nat n) by lia. lia. }
    intros k Hk. apply In_elem in Hk as (i & Hi). pose proof (elem_range _ _ _ Hi). destruct (H (Z.to_nat i)) as (p & H1 & H2); [lia|]. exists p. split; [exact H1|]. rewrite H2, Z2Nat.id by lia. exact (znth_elem _ _ _ Hi).
Qed.

Lemma mark_spec : forall l (h : list bool), in_range (zlen h) l ->
  let h' := fold_left (fun h i => set_at h (Z.to_nat i) true) l h in
  length h' = length h /\ forall i, 0 <= i -> nth (Z.to_nat i) h' false = true <-> In i l \/ nth (Z.to_nat i) h false = true.
Proof.
  induction l as [|x l IH]; intros h Hr; cbn [fold_left].
  - split; [reflexivity|]. intros i _. cbn. tauto.
  - inversion Hr as [|? ? Hx Hl]; subst. destruct (IH (set_at h (Z.to_nat x) true)) as [H1 H2]; [unfold zlen in *; rewrite length_set_at; exact Hl|].
    cbn zeta. split; [rewrite H1; apply length_set_at|]. intros i Hi. rewrite H2 by exact Hi. cbn [In].
    destruct (Z.eq_dec x i) as [->|E].
    + rewrite nth_set_same by (unfold zlen in Hx; lia). tauto.
    + rewrite nth_set_at by (unfold zlen in Hx; lia). destruct (Nat.eqb_spec (Z.to_nat x) (Z.to_nat i)); [lia|]. tauto.
Qed.

Section Loop.
Context (env : axenv) (Henv : env_ok env) (lexsort : list (list Z) -> list Z) (Hlex : lexsort_ok lexsort) (junk : list Z -> num).
Notation ops := (axis_ops env).
Notation var := (ViewModel.var axis num).
Notation get := (ViewModel.get ops junk).
Context (A : list axis) (Hsep : separate A) (ti : nat) (t : taxis) (Ht : nth_error A ti = Some (Time t)) (Hgood : good_axis (Time t))
        (Honly : forall i s, nth_error A i = Some (Time s) -> i = ti).
Context (files : list (option var)) (faxis : taxis) (Gf : good_axis (Time faxis)) (Hfl : length files = length (t_dates faxis)).
Context (contents : Z -> taxis * (list Z -> num))
        (Hin : forall k x, elem files k (Some x) -> in_file env A ti t faxis k x (fst (contents k)) (snd (contents k))).
Context (K : list (list Z)) (HK : Forall2 selection A K).
Notation Kt := (nth ti K []).
Context (times : taxis) (Hsl : sliced (Time t) Kt (Time times)).
Notation found := (found ti t K).
Notation place := (wrapped (zlen files)).

Lemma time_place B : matching ti A B -> (forall c, nth_error B ti = Some (Time c) -> time_index B = Some (ti, c)) /\ time_index (remove_at B ti) = None.
Proof.
  intros (HL & _ & HS & _). pose proof (ti_in A ti t Ht) as Hti.
  assert (forall j s, j <> ti -> nth_error B j <> Some (Time s)) as HN.
  { intros j s Hj Hb. destruct (nth_error A j) as [a|] eqn:Ea; [|apply nth_error_None in Ea; assert (j < length B)%nat by (apply nth_error_Some; congruence); lia].
    pose proof (same_kind _ _ (HS j a (Time s) Hj Ea Hb)) as S. destruct a; try (destruct S; fail). apply Hj. exact (Honly _ _ Ea). }
  split.
  - intros c Hc. apply time_index_at; [exact Hc|]. intros i s Hi. destruct (Nat.eq_dec i ti); [assumption|]. exfalso. exact (HN i s n Hi).
  - apply find_first_none. intros a Ha. apply In_nth_error in Ha as [j Hj]. rewrite nth_error_remove in Hj. destruct a as [| |s]; try reflexivity. exfalso.
    apply (HN (if Nat.ltb j ti then j else S j) s); [destruct (Nat.ltb_spec j ti); lia|exact Hj].
Qed.

Lemma chunk_of k x : elem files (place k) (Some x) -> timechunk env faxis x k = Some (fst (contents (place k))).
Proof.
  intros Hx. destruct (Hin _ _ Hx) as (Gc & Hcc & Hcm & [(Rx & Hb & HM)|(D & Rx & Hle & HM & Hs & HF)]).
  - unfold timechunk. rewrite (proj1 (time_place _ HM) _ Hb). reflexivity.
  - unfold timechunk. assert (time_index (var_axes x) = None) as ->.
    { pose proof (proj2 (time_place _ HM)) as E. rewrite remove_insert in E by exact Hle. exact E. }
    assert (zlen (t_dates faxis) = zlen files) as El by (unfold zlen; now rewrite Hfl). rewrite El. pose proof (elem_range _ _ _ Hx) as Hr.
    assert ((0 <=? place k) && (place k <? zlen files) = true) as -> by lia.
    assert (in_range (axis_len (Time faxis)) [place k]) as Hir by (constructor; [cbn [axis_len]; lia|constructor]).
    pose proof (sliced_self env Henv (Time faxis) [place k] Gf Hir) as Hss. pose proof (take_time env (Time faxis) [place k]) as Htt.
    destruct (axis_take env (Time faxis) [place k]) as [| |s]; try (destruct Htt; fail). f_equal. destruct (fst (contents (place k))) as [c1 c2 c3 c4 c5 c6 c7].
    destruct Hss as (E1 & E2 & E3 & E4 & E5 & E6 & E7), Hs as (G1 & G2 & G3 & G4 & G5 & G6 & G7). destruct s. cbn in *. congruence.
Qed.

Lemma file_at k o : py_nth files k = Some o <-> elem files (place k) o.
Proof.
  unfold py_nth, TimeSearchModel.znth. destruct (Z.ltb_spec (place k) 0) as [H|H].
  - split; [discriminate|]. intros [H1 _]. lia.
  - split; [intros E; split; [lia|exact E]|intros [_ E]; exact E].
Qed.

Notation multi_step := (multi_step env lexsort junk files faxis (view_of_inds A K) ti times).

Lemma step_missing k out h : ~ (exists x, elem files (place k) (Some x)) -> multi_step k out h = None.
Proof.
  intros H. unfold MultiFileModel.multi_step. destruct (py_nth files k) as [[x|]|] eqn:E; try reflexivity. exfalso. apply H. exists x. now apply file_at.
Qed.
Lemma step_empty k x out h : elem files (place k) (Some x) -> (forall i j, ~ found (fst (contents (place k))) i j) -> multi_step k out h = None.
Proof.
  intros Hx Hno. unfold MultiFileModel.multi_step. rewrite (proj2 (file_at _ _) Hx). cbn [bind]. rewrite (chunk_of _ _ Hx). cbn [bind].
  destruct (Hin _ _ Hx) as (Gc & Hcc & Hcm & _). destruct (pairs_exist lexsort Hlex A ti t Ht Hgood Honly K HK times Hsl _ Hcc Hcm Gc) as (m & E & Hm). rewrite E. cbn [bind].
  destruct m as [|[i j] m]; [reflexivity|]. exfalso. apply (Hno i j). apply (proj2 Hm). now left.
Qed.
Lemma step_reads k x out h : elem files (place k) (Some x) -> (exists i j, found (fst (contents (place k))) i j) -> shape out = map zlen K -> length h = length Kt ->
  exists out' h', multi_step k out h = Some (out', h') /\ shape out' = map zlen K /\ length h' = length Kt /\
    (forall p, position (map zlen K) p ->
       (forall j, found (fst (contents (place k))) (nth ti p 0) j -> val out' p = snd (contents (place k)) (set_at (gather K p) ti j)) /\
       ((forall j, ~ found (fst (contents (place k))) (nth ti p 0) j) -> val out' p = val out p)) /\
    (forall i, 0 <= i < zlen Kt -> nth (Z.to_nat i) h' false = true <-> (exists j, found (fst (contents (place k))) i j) \/ nth (Z.to_nat i) h false = true).
Proof.
  intros Hx (i0 & j0 & H0) Hsh Hh. unfold MultiFileModel.multi_step. rewrite (proj2 (file_at _ _) Hx). cbn [bind]. rewrite (chunk_of _ _ Hx). cbn [bind].
  pose proof (Hin _ _ Hx) as HI. destruct (contents (place k)) as [c F]. cbn [fst snd] in *. destruct HI as (Gc & Hcc & Hcm & HI).
  destruct (pairs_exist lexsort Hlex A ti t Ht Hgood Honly K HK times Hsl _ Hcc Hcm Gc) as (m & E & Hm). rewrite E. cbn [bind].
  assert (m <> []) as Hne by (intros ->; apply (proj2 Hm) in H0; destruct H0).
  assert ((zlen (map fst m) =? 0) = false) as -> by (unfold zlen; rewrite map_length; destruct m; [congruence|]; cbn [length]; lia).
  rewrite (the_view env A ti t Ht Hgood K HK times Hsl c m Hm). cbn [bind].
  assert (exists r, get (view_of_inds (N A ti times) (KN ti K m)) x true true = Some r /\
    array_is r (set_at (map zlen K) ti (zlen m)) (fun p => F (set_at (gather K p) ti (znth (map snd m) (nth ti p 0))))) as (r & Er & Ar).
  { destruct HI as [(Rx & Hb & HM)|(D & Rx & Hle & HM & Hs & HF)].
    - exact (get_timed env Henv junk A ti t Ht Hgood Honly K HK times Hsl c Hcc Hcm Gc m Hm Hne _ HM x F Rx eq_refl Hb).
    - destruct (get_untimed env junk A ti t Ht Hgood Honly K HK times Hsl c m Hm Hne _ HM x D Rx) as (r & Er & A1 & A2).
      + now rewrite remove_insert.
      + exact (sliced_len _ _ _ Gf Hs).
      + exists r. split; [exact Er|]. split; [exact A1|]. intros p Hp. rewrite A2 by exact Hp. rewrite HF, remove_set. reflexivity. }
  rewrite Er. cbn [bind].
  pose proof (Kt_at A ti t Ht K HK) as HKt. pose proof (big_NoDup ti t K c Hcm Gc m Hm) as Nb. pose proof (big_range ti t K c m Hm) as Rb.
  assert (nth_error (map zlen K) ti = Some (zlen Kt)) as Hnth by (rewrite nth_error_map, HKt; reflexivity).
  destruct (set_along_list out r (map zlen K) ti (zlen Kt) (map fst m) (fun p => F (set_at (gather K p) ti (znth (map snd m) (nth ti p 0)))) Hsh Hnth Nb Rb) as (out' & E' & S' & V').
  { assert (zlen (map fst m) = zlen m) as -> by (unfold zlen; now rewrite map_length). exact Ar. }
  rewrite E'. cbn [bind]. destruct (mark_spec (map fst m) h) as [L1 L2]; [unfold zlen in *; rewrite Hh; exact Rb|].
  eexists _, _. split; [reflexivity|]. split; [exact S'|]. split; [rewrite L1; exact Hh|]. split.
  - intros p Hp. destruct (V' p Hp) as [V1 V2]. split.
    + intros j Hj. pose proof (proj2 (proj2 Hm _ _) Hj) as Hi. apply In_elem in Hi as (q & Hq). destruct (pair_at m q _ _ Hq) as [Q1 Q2]. rewrite (V1 q Q1).
      assert (ti < length p)%nat as Hti by (pose proof (Forall2_len _ _ _ Hp) as El; rewrite map_length, (lenK A K HK) in El; pose proof (ti_in A ti t Ht); lia).
      rewrite nth_set_same by exact Hti. rewrite gather_set_p, set_at_set. f_equal. f_equal. exact (znth_elem _ _ _ Q2).
    + intros Hno. apply V2. intros Hi. apply In_elem in Hi as (q & Hq). destruct (big_small ti t K c m Hm q _ Hq) as (j & _ & Hj). exact (Hno j Hj).
  - intros i Hi. rewrite L2 by lia. split; intros [H|H]; auto; left.
    + apply In_elem in H as (q & Hq). destruct (big_small ti t K c m Hm q _ Hq) as (j & _ & Hj). exists j. exact Hj.
    + destruct H as (j & Hj). apply (proj2 Hm) in Hj. apply in_map_iff. exists (i, j). auto.
Qed.

Lemma present_dec k : (exists x, elem files k (Some x)) \/ ~ (exists x, elem files k (Some x)).
Proof.
  destruct (Z.ltb_spec k 0) as [H|H]; [right; intros (x & Hx & _); lia|].
  destruct (nth_error files (Z.to_nat k)) as [[x|]|] eqn:E; [left; exists x; split; [lia|exact E]| |]; right; intros (x & _ & Hx); congruence.
Qed.
Lemma found_dec k x : elem files (place k) (Some x) -> (exists i j, found (fst (contents (place k))) i j) \/ (forall i j, ~ found (fst (contents (place k))) i j).
Proof.
  intros Hx. destruct (Hin _ _ Hx) as (Gc & Hcc & Hcm & _). destruct (pairs_exist lexsort Hlex A ti t Ht Hgood Honly K HK times Hsl _ Hcc Hcm Gc) as (m & E & Hm).
  destruct m as [|[i j] m]; [right; intros i j H; apply (proj2 Hm) in H; destruct H|left; exists i, j; apply (proj2 Hm); now left].
Qed.
Lemma found_at_dec k x i : elem files (place k) (Some x) -> (exists j, found (fst (contents (place k))) i j) \/ (forall j, ~ found (fst (contents (place k))) i j).
Proof.
  intros Hx. destruct (Hin _ _ Hx) as (Gc & Hcc & Hcm & _). destruct (pairs_exist lexsort Hlex A ti t Ht Hgood Honly K HK times Hsl _ Hcc Hcm Gc) as (m & E & Hm).
  destruct (in_dec Z.eq_dec i (map fst m)) as [H|H].
  - apply in_map_iff in H as ([i' j] & E' & H). cbn in E'. subst i'. left. exists j. now apply (proj2 Hm).
  - right. intros j Hj. apply H. apply (proj2 Hm) in Hj. apply in_map_iff. exists (i, j). auto.
Qed.

(** the loop, over the files that are opened one after the other *)
Definition run (ks : list Z) (s : option (arr num * list bool)) : option (arr num * list bool) :=
  fold_left (fun s k => bind s (fun '(out, handled) => multi_step k out handled)) ks s.
Lemma run_none ks : run ks None = None.
Proof. induction ks as [|k ks IH]; [reflexivity|exact IH]. Qed.

(** every element that was filled in comes from a file that holds that time *)
Definition from_files (s : arr num * list bool) : Prop :=
  shape (fst s) = map zlen K /\ length (snd s) = length Kt /\
  forall p, position (map zlen K) p -> nth (Z.to_nat (nth ti p 0)) (snd s) false = true ->
    exists k x j, elem files k (Some x) /\ found (fst (contents k)) (nth ti p 0) j /\ val (fst s) p = snd (contents k) (set_at (gather K p) ti j).
Lemma time_pos p : position (map zlen K) p -> 0 <= nth ti p 0 < zlen Kt.
Proof. intros Hp. apply (position_at _ _ _ _ Hp). rewrite nth_error_map, (Kt_at A ti t Ht K HK). reflexivity. Qed.
Lemma run_from ks : forall s s', from_files s -> run ks (Some s) = Some s' -> from_files s'.
Proof.
  induction ks as [|k ks IH]; intros [out h] s' Hs E; [injection E as <-; exact Hs|]. cbn [run fold_left bind] in E. fold (run ks) in E.
  destruct (present_dec (place k)) as [(x & Hx)|Hno]; [|rewrite (step_missing k out h Hno) in E; change (run ks None = Some s') in E; rewrite run_none in E; discriminate].
  destruct (found_dec k x Hx) as [Hf|Hno]; [|rewrite (step_empty k x out h Hx Hno) in E; change (run ks None = Some s') in E; rewrite run_none in E; discriminate].
  destruct Hs as (S1 & S2 & S3). destruct (step_reads k x out h Hx Hf S1 S2) as (out' & h' & E' & T1 & T2 & T3 & T4). rewrite E' in E. apply (IH (out', h') s'); [|exact E].
  split; [exact T1|]. split; [exact T2|]. cbn [fst snd] in *. intros p Hp Hh. destruct (T3 p Hp) as [V1 V2]. apply T4 in Hh; [|exact (time_pos p Hp)].
  destruct (found_at_dec k x (nth ti p 0) Hx) as [(j & Hj)|Hno].
  - exists (place k), x, j. split; [exact Hx|]. split; [exact Hj|]. exact (V1 j Hj).
  - rewrite (V2 Hno). apply S3; [exact Hp|]. destruct Hh as [(j & Hj)|Hh]; [destruct (Hno j Hj)|exact Hh].
Qed.
(** a file that cannot be read is not passed over *)
Lemma run_missing ks k s s' : In k ks -> ~ (exists x, elem files (place k) (Some x)) -> run ks (Some s) = Some s' -> False.
Proof.
  intros Hk Hno. revert s. induction ks as [|k' ks IH]; intros [out h] E; [destruct Hk|]. cbn [run fold_left bind] in E. fold (run ks) in E.
  destruct Hk as [->|Hk].
  - rewrite (step_missing k out h Hno) in E. change (run ks None = Some s') in E. rewrite run_none in E. discriminate.
  - destruct (multi_step k' out h) as [s1|] eqn:E1; [exact (IH Hk s1 E)|change (run ks None = Some s') in E; rewrite run_none in E; discriminate].
Qed.
(** if each time is in one file only, it is found whenever that file is opened *)
Lemma run_tidy (Hone : forall i k k' x x' j j', elem files k (Some x) -> elem files k' (Some x') -> found (fst (contents k)) i j -> found (fst (contents k')) i j' -> k = k') ks :
  (forall k, In k ks -> exists x i j, elem files (place k) (Some x) /\ found (fst (contents (place k))) i j) ->
  forall s, from_files s -> exists s', run ks (Some s) = Some s' /\ from_files s' /\
    forall i, 0 <= i < zlen Kt -> nth (Z.to_nat i) (snd s') false = true <-> nth (Z.to_nat i) (snd s) false = true \/ exists k j, In k ks /\ found (fst (contents (place k))) i j.
Proof.
  induction ks as [|k ks IH]; intros Hks [out h] Hs.
  - exists (out, h). split; [reflexivity|]. split; [exact Hs|]. intros i _. split; [auto|]. intros [H|(k & j & H & _)]; [exact H|destruct H].
  - destruct (Hks k (or_introl eq_refl)) as (x & i0 & j0 & Hx & Hf). pose proof Hs as (S1 & S2 & _). destruct (step_reads k x out h Hx (ex_intro _ i0 (ex_intro _ j0 Hf)) S1 S2) as (out' & h' & E' & T1 & T2 & T3 & T4).
    assert (from_files (out', h')) as Hs' by (apply (run_from [k] (out, h)); [exact Hs|]; cbn; exact E').
    destruct (IH (fun k' H => Hks k' (or_intror H)) (out', h') Hs') as (s' & E & Q1 & Q2). exists s'. cbn [run fold_left bind]. rewrite E'. split; [exact E|]. split; [exact Q1|].
    intros i Hi. rewrite (Q2 i Hi). cbn [snd]. rewrite (T4 i Hi). split.
    + intros [[(j & Hj)|H]|(k' & j & Hk' & Hj)]; [right; exists k, j; split; [now left|exact Hj]|now left|right; exists k', j; split; [now right|exact Hj]].
    + intros [H|(k' & j & [<-|Hk'] & Hj)]; [left; now right|left; left; exists j; exact Hj|right; exists k', j; auto].
Qed.
End Loop.
