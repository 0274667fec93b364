(** Weighted reductions. *)
From Coq Require Import ZArith List Bool Lia QArith_base Qcanon Permutation Field.
From Verif Require Import SortSpec IndexModel IndexSpec IndexProofs ChunkProofs ArrModel ArrProofs ViewModel ViewSpec ViewProofs AxisModel AxisSpec AxisProofs
     VarOpsModel VarOpsSpec VarOpsProofs NumModel ReduceModel ReduceSpec NumProofs FibreProofs LoopProofs RespondProofs ReduceProofs ReduceKinds StatProofs MeanKinds.
Import ListNotations.
Open Scope Z_scope.

(** *** sums of functions that do not depend on some coordinates *)
Fixpoint same (F : list bool) (q q' : list Z) : Prop :=
  match F, q, q' with
  | [], [], [] => True
  | f :: F, x :: q, x' :: q' => (f = true -> x = x') /\ same F q q'
  | _, _, _ => False
  end.
Inductive thins : list bool -> list (list Z) -> list (list Z) -> Prop :=
  | thins_nil : thins [] [] []
  | thins_true F A B l : thins F A B -> thins (true :: F) (l :: A) (l :: B)
  | thins_false F A B l y : thins F A B -> thins (false :: F) (l :: A) ([y] :: B).

Lemma qsum_flat {A} (h : list Z -> Qc) (f : A -> list (list Z)) l : qsum (map h (flat_map f l)) = qsum (map (fun x => qsum (map h (f x))) l).
Proof.
  assert (forall a b, qsum (a ++ b) = (qsum a + qsum b)%Qc) as Happ.
  { induction a as [|x a IH]; intros b; cbn; [now rewrite Qcplus_0_l|]. rewrite IH. apply Qcplus_assoc. }
  induction l as [|x l IH]; [reflexivity|]. cbn [flat_map map]. rewrite map_app, Happ, IH. reflexivity.
Qed.
Lemma qsum_scale {A} (m : Qc) (g : A -> Qc) l : qsum (map (fun x => m * g x)%Qc l) = (m * qsum (map g l))%Qc.
Proof. induction l as [|x l IH]; [cbn; ring|]. unfold qsum in *. cbn [map fold_right]. rewrite IH. ring. Qed.
Lemma qsum_const {A} (c : Qc) (l : list A) : qsum (map (fun _ => c) l) = (qz (zlen l) * c)%Qc.
Proof.
  induction l as [|x l IH]; [unfold qsum; cbn [map fold_right]; change (qz (zlen (@nil A))) with 0%Qc; change (Q2Qc 0) with 0%Qc; ring|]. cbn [map qsum fold_right]. change (fold_right Qcplus (Q2Qc 0) (map (fun _ => c) l)) with (qsum (map (fun _ => c) l)).
  rewrite IH. replace (zlen (x :: l)) with (1 + zlen l) by (unfold zlen; cbn [length]; lia). rewrite qz_add.
  change (qz 1) with 1%Qc. ring.
Qed.
Lemma thins_same F A B : thins F A B -> forall q, In q (product B) -> same F q q.
Proof.
  induction 1 as [|F A B l H IH|F A B l y H IH]; intros q Hq.
  - destruct Hq as [<-|[]]. exact I.
  - rewrite product_cons in Hq. apply in_flat_map in Hq as (x & _ & Hq). apply in_map_iff in Hq as (q' & <- & Hq'). cbn. auto.
  - rewrite product_cons in Hq. apply in_flat_map in Hq as (x & _ & Hq). apply in_map_iff in Hq as (q' & <- & Hq'). cbn. auto.
Qed.
Lemma shrink_sum F A B : thins F A B -> forall h : list Z -> Qc, (forall q q', same F q q' -> h q = h q') ->
  qsum (map h (product A)) = (qz (prod (map zlen (dropped F A))) * qsum (map h (product B)))%Qc.
Proof.
  induction 1 as [|F A B l H IH|F A B l y H IH]; intros h Hh.
  - cbn [product map dropped]. change (prod []) with 1. change (qz 1) with 1%Qc. ring.
  - rewrite !product_cons, !qsum_flat. cbn [dropped]. rewrite <- qsum_scale. f_equal. apply map_ext. intros x. rewrite !map_map.
    apply (IH (fun q => h (x :: q))). intros q q' Hs. apply Hh. cbn. auto.
  - rewrite !product_cons, !qsum_flat. cbn [dropped map]. rewrite map_map.
    assert (map (fun x => qsum (map h (map (cons x) (product A)))) l =
            map (fun _ => qz (prod (map zlen (dropped F A))) * qsum (map (fun q => h (y :: q)) (product B)))%Qc l) as ->.
    { apply map_ext. intros x. rewrite map_map. rewrite (IH (fun q => h (x :: q))).
      - f_equal. f_equal. apply map_ext_in. intros q Hq. apply Hh. cbn. split; [discriminate|]. now apply (thins_same F A B H).
      - intros q q' Hs. apply Hh. cbn. auto. }
    rewrite qsum_const. cbn [prod fold_right]. fold (prod (map zlen (dropped F A))). rewrite qz_mul. cbn [qsum fold_right]. ring.
Qed.

(** the shape with 1 for the unmarked axes *)
Fixpoint thin (F : list bool) (s : list Z) : list Z :=
  match F, s with
  | f :: F, n :: s => (if f then n else 1) :: thin F s
  | _, _ => []
  end.
Lemma length_thin F s : length F = length s -> length (thin F s) = length s.
Proof. revert s. induction F as [|f F IH]; intros [|n s] H; cbn in *; try lia. rewrite IH; lia. Qed.
Lemma nth_error_thin F s i : nth_error (thin F s) i =
  match nth_error F i, nth_error s i with Some f, Some n => Some (if f then n else 1) | _, _ => None end.
Proof.
  revert s i. induction F as [|f F IH]; intros [|n s] [|i]; cbn; try reflexivity.
  - now destruct (nth_error F i).
  - apply IH.
Qed.
Lemma outshape_thin s sigma : outshape s sigma = thin (gone_axes (length s) sigma) s.
Proof.
  apply nth_error_ext'. intros i. unfold outshape. rewrite nth_error_map, nth_error_combine, nth_error_seq, nth_error_thin, nth_error_gone.
  destruct (Nat.ltb_spec i (length s)) as [H|H]; [|reflexivity].
  cbn. now destruct (nth_error s i).
Qed.

(** flags F is a subset of flags G *)
Fixpoint within (F G : list bool) : Prop :=
  match F, G with
  | [], [] => True
  | f :: F, g :: G => (f = true -> g = true) /\ within F G
  | _, _ => False
  end.
Definition zeros {A} (l : list A) : list Z := map (fun _ => 0) l.
Lemma dropped_thin F G s : within F G -> length s = length F -> dropped G (thin F s) = map (fun _ => 1) (dropped G s).
Proof.
  revert G s. induction F as [|f F IH]; intros [|g G] [|n s] H Hl; cbn in *; try lia; try easy. destruct H as [Hf H].
  destruct g; cbn; [apply IH; auto; lia|]. destruct f; [now specialize (Hf eq_refl)|]. f_equal. apply IH; auto; lia.
Qed.
Lemma thins_fibl F G s k : within F G -> length s = length F -> length k = length (dropped G s) ->
  thins F (fibl G (map (fun n => arange 0 n 1) s) k) (fibl G (map (fun n => arange 0 n 1) (thin F s)) (zeros k)).
Proof.
  revert G s k. induction F as [|f F IH]; intros [|g G] [|n s] k H Hl Hk; cbn in *; try lia; try easy; [constructor|]. destruct H as [Hf H].
  destruct g.
  - destruct f; cbn [map fibl]; [constructor; apply IH; auto|]. change (arange 0 1 1) with [0]. constructor. apply IH; auto.
  - destruct f; [now specialize (Hf eq_refl)|]. destruct k as [|x k]; [discriminate Hk|]. cbn in *. constructor. apply IH; auto.
Qed.
Lemma prod_cons n s : prod (n :: s) = n * prod s. Proof. reflexivity. Qed.
Lemma zlen_cons {A} (x : A) l : zlen (x :: l) = 1 + zlen l. Proof. unfold zlen. cbn [length]. lia. Qed.
Lemma zlen_arange_pos n : 0 < n -> zlen (arange 0 n 1) = n.
Proof. intros H. apply zlen_arange. lia. Qed.
Lemma prod_split F G s k : within F G -> length s = length F -> length k = length (dropped G s) -> Forall (fun n => 0 < n) s ->
  prod s = prod (thin F s) * prod (dropped G s) * prod (map zlen (dropped F (fibl G (map (fun n => arange 0 n 1) s) k))).
Proof.
  revert G s k. induction F as [|f F IH]; intros [|g G] [|n s] k H Hl Hk Hp; cbn [length within dropped thin map fibl] in *; try lia; try easy.
  destruct H as [Hf H]. inversion Hp as [|? ? Hn Hp']; subst.
  destruct g.
  - destruct f; cbn [dropped map]; rewrite !prod_cons, (IH G s k) by (auto; lia); [ring|]. rewrite zlen_arange_pos by lia. ring.
  - destruct f; [now specialize (Hf eq_refl)|]. destruct k as [|x k]; [discriminate Hk|]. cbn [length dropped map] in *.
    rewrite !prod_cons, (IH G s k) by (auto; lia). change (zlen [x]) with 1. ring.
Qed.
Lemma prod_positive s : Forall (fun n => 0 < n) s -> 0 < prod s.
Proof. induction 1 as [|n s H _ IH]; cbn; [lia|]. fold (prod s). lia. Qed.
Lemma thin_positive F s : Forall (fun n => 0 < n) s -> Forall (fun n => 0 < n) (thin F s).
Proof. revert s. induction F as [|f F IH]; intros [|n s] H; cbn; constructor; inversion H; subst; [destruct f; lia|auto]. Qed.
Lemma dropped_positive G s : Forall (fun n => 0 < n) s -> Forall (fun n => 0 < n) (dropped G s).
Proof. revert s. induction G as [|g G IH]; intros [|n s] H; cbn; try constructor; inversion H; subst; destruct g; cbn; auto. Qed.

(** the position used for an element of a thin array *)
Lemma thin_position F s p : length F = length s -> position s p ->
  position (thin F s) (map (fun '(m, x) => if m =? 1 then 0 else x) (combine (thin F s) p)) /\
  forall i, nth_error F i = Some true -> nth i (map (fun '(m, x) => if m =? 1 then 0 else x) (combine (thin F s) p)) 0 = nth i p 0.
Proof.
  intros Hl Hp. revert F Hl. induction Hp as [|n x s p Hx Hp IH]; intros [|f F] Hl; cbn in Hl; try lia.
  - cbn. split; [constructor|]. intros [|?]; reflexivity.
  - destruct (IH F ltac:(lia)) as [H1 H2]. cbn [thin combine map]. split.
    + constructor; [|exact H1]. destruct f; [destruct (Z.eqb_spec n 1); lia|]. cbn. lia.
    + intros [|i] Hi; cbn in *; [|now apply H2]. injection Hi as ->. destruct (Z.eqb_spec n 1); lia.
Qed.

Section Weighted.
Context (env : axenv) (Henv : env_ok env) (MAX : Z) (HMAX : 1 <= MAX) (junk : list Z -> num).
Notation ops := (axis_ops env).
Notation get := (ViewModel.get ops junk).
Context (x w : var axis num) (D Dw : list Z -> num) (Hx : responds env x D) (Hw : responds env w Dw)
        (Hgood : Forall good_axis (var_axes x)) (indices along : list nat) (Hred : reducible x indices)
        (Hal : weights_along x w indices along).
Notation n := (length (var_axes x)).
Notation G := (gone_axes n indices).
Notation F := (gone_axes n along).
Notation wt := (weight_at along Dw).

Let Hnd := idx_nd x indices Hred.
Let Hlt := idx_lt x indices Hred.
Let Hpos := idx_pos x indices Hred.

Lemma along_lt : Forall (fun i => (i < n)%nat) along.
Proof.
  destruct Hal as [_ H]. clear -H. induction H as [|a i l l' [_ H1] _ IH]; constructor; [|exact IH]. apply nth_error_Some. congruence.
Qed.
Lemma along_in i : In i along -> In i indices.
Proof.
  destruct Hal as [_ H]. clear -H. induction H as [|a j l l' [H1 _] _ IH]; intros Hi; [destruct Hi|]. destruct Hi as [<-|Hi]; auto.
Qed.
Lemma within_flags : within F G.
Proof.
  unfold gone_axes. pose proof along_in as H. revert H. generalize along indices. clear. intros l l' H.
  induction (seq 0 (length (var_axes x))) as [|i s IH]; cbn; [exact I|]. split; [|exact IH]. intros E%existsb_In. apply existsb_In. auto.
Qed.

Lemma weights_got c : Forall2 selection (var_axes x) c ->
  exists b, get (view_of_inds (var_axes x) c) w true true = Some b /\
    array_is b (thin F (map zlen c)) (fun p => wt (gather c p)).
Proof.
  intros Hc. pose proof Hx as [Hsep _]. destruct Hal as [Hand Hal2]. pose proof (Forall2_len _ _ _ Hc) as Hl.
  set (js := map (fun i => (i, arange 0 (nth i (map axis_len (var_axes x)) 0) 1)) along).
  assert (map fst js = along) as Hf by (unfold js; rewrite map_map; cbn; apply map_id).
  destruct (get_derived_inc env Henv junk (var_axes x) c w Dw js Hw) as (b & Hb & Ha).
  - eapply Forall2_impl; [|exact Hc]. intros a l (H1 & H2 & _). split; assumption.
  - apply Forall2_map_r. eapply Forall2_impl; [|exact Hal2]. intros a i [_ Hi]. unfold derived. cbn [fst snd].
    erewrite nth_error_nth by (rewrite nth_error_map, Hi; reflexivity). split.
    + apply Forall_forall. intros z Hz. apply In_elem in Hz as (k & Hk). apply elem_arange in Hk; lia.
    + exists a. split; [exact Hi|]. split; [right; split; reflexivity|]. intros i' b' Hne Hb'. refine (Hsep i i' a b' Hi Hb' _). congruence.
  - now rewrite Hf.
  - unfold js. apply Forall_map, Forall_forall. intros i Hi. pose proof along_lt as Hlt'. rewrite Forall_forall in Hlt'. specialize (Hlt' i Hi).
    destruct (nth_error (var_axes x) i) as [a|] eqn:Ea; [|apply nth_error_None in Ea; lia].
    destruct (nth_error c i) as [l|] eqn:El; [|apply nth_error_None in El; lia].
    destruct (Forall2_nth_error _ _ _ _ _ _ Hc Ea El) as (_ & H2 & H3).
    erewrite nth_error_nth by (rewrite nth_error_map, Ea; reflexivity). rewrite (nth_error_nth _ _ _ El), arange_znth by exact H2. exact H3.
  - exists b. split; [exact Hb|]. rewrite Hf, outshape_thin, map_length, <- Hl in Ha. destruct Ha as [Hs Hv]. split; [exact Hs|].
    intros p Hp. rewrite (Hv p Hp). unfold derived_data, weight_at, js. f_equal. rewrite map_map. apply map_ext_in. intros i Hi.
    pose proof along_lt as Hlt'. rewrite Forall_forall in Hlt'. specialize (Hlt' i Hi).
    destruct (nth_error (var_axes x) i) as [a|] eqn:Ea; [|apply nth_error_None in Ea; lia].
    destruct (nth_error c i) as [l|] eqn:El; [|apply nth_error_None in El; lia].
    destruct (Forall2_nth_error _ _ _ _ _ _ Hc Ea El) as (_ & H2 & H3).
    erewrite nth_error_nth by (rewrite nth_error_map, Ea; reflexivity).
    pose proof (Forall2_len _ _ _ Hp) as Hpl. rewrite length_thin in Hpl by (rewrite length_gone, map_length; exact Hl). rewrite map_length in Hpl.
    rewrite (nth_gather junk) by lia. rewrite (nth_error_nth _ _ _ El).
    assert (0 <= nth i p 0 < zlen l) as Hp1.
    { destruct (nth_error p i) as [y|] eqn:Ey; [|apply nth_error_None in Ey; lia]. rewrite (nth_error_nth _ _ _ Ey).
      assert (nth_error (thin F (map zlen c)) i = Some (zlen l)) as Et.
      { rewrite nth_error_thin, nth_error_gone, nth_error_map, El. destruct (Nat.ltb_spec i n); [|lia]. cbn.
        assert (existsb (Nat.eqb i) along = true) as -> by now apply existsb_In. reflexivity. }
      exact (Forall2_nth_error _ _ _ _ _ _ Hp Et Ey). }
    assert (0 <= znth l (nth i p 0) < axis_len a) as Hb1.
    { unfold in_range in H2. rewrite Forall_forall in H2. apply H2. unfold znth. apply nth_In. unfold zlen in Hp1. lia. }
    rewrite znth_arange1; lia.
Qed.

Lemma wt_same q q' : same F q q' -> wt q = wt q'.
Proof.
  intros H. unfold weight_at. f_equal. apply map_ext_in. intros i Hi.
  assert (forall F q q' i, same F q q' -> nth_error F i = Some true -> nth i q 0 = nth i q' 0) as HH.
  { clear. induction F as [|f F IH]; intros [|y q] [|y' q'] [|i] H Hi; cbn in *; try easy; destruct H as [H1 H2]; [injection Hi as ->; auto|eauto]. }
  apply (HH F); [exact H|]. rewrite nth_error_gone. pose proof along_lt as Hlt'. rewrite Forall_forall in Hlt'. specialize (Hlt' i Hi).
  destruct (Nat.ltb_spec i n); [|lia]. f_equal. now apply existsb_In.
Qed.

Lemma zip_weights c (a b : arr num) h : Forall2 selection (var_axes x) c ->
  array_is a (map zlen c) (fun p => h (gather c p)) -> array_is b (thin F (map zlen c)) (fun p => wt (gather c p)) ->
  exists r, zip_to mul a b = Some r /\ array_is r (map zlen c) (fun p => mul (h (gather c p)) (wt (gather c p))).
Proof.
  intros Hc [Hs Hv] [Hsb Hvb]. pose proof (Forall2_len _ _ _ Hc) as Hl. unfold zip_to, broadcast. rewrite Hs, Hsb.
  assert (length F = length (map zlen c)) as HF by (rewrite length_gone, map_length; exact Hl).
  rewrite length_thin by exact HF. rewrite Nat.eqb_refl.
  assert (forallb (fun '(m, n) => (m =? n) || (m =? 1)) (combine (thin F (map zlen c)) (map zlen c)) = true) as ->.
  { clear. generalize F (map zlen c). intros fl. induction fl as [|f fl IH]; intros [|m s]; cbn; try reflexivity. rewrite IH. destruct f; rewrite Z.eqb_refl; [reflexivity|now rewrite orb_true_r]. }
  cbn [andb]. eexists. split; [reflexivity|]. split; [reflexivity|]. intros p Hp. cbn [val]. rewrite Hv by exact Hp. f_equal.
  destruct (thin_position F (map zlen c) p HF Hp) as [H1 H2]. rewrite Hvb by exact H1. unfold weight_at. f_equal. apply map_ext_in. intros i Hi.
  pose proof along_lt as Hlt'. rewrite Forall_forall in Hlt'. specialize (Hlt' i Hi).
  pose proof (Forall2_len _ _ _ Hp) as Hpl. pose proof (Forall2_len _ _ _ H1) as Hpl'. rewrite length_thin in Hpl' by exact HF. rewrite map_length in Hpl, Hpl'.
  rewrite !(nth_gather junk) by lia. f_equal. apply H2. rewrite nth_error_gone.
  destruct (Nat.ltb_spec i n); [|lia]. f_equal. now apply existsb_In.
Qed.

Lemma weighted_answer agg pre init comb (R Ro : list num -> num -> Prop) :
  (forall v, R [v] v) -> (forall ls vs, Forall2 R ls vs -> R (concat ls) (agg vs)) ->
  (forall l l' w, Permutation l l' -> Ro l w -> Ro l' w) -> Ro [] init ->
  (forall l1 w l2 b, Ro l1 w -> l2 <> [] -> R l2 b -> Ro (l1 ++ l2) (comb w b)) ->
  forall L, Forall2 selection (kept_axes (var_axes x) indices) L ->
  exists r, accumulate env junk MAX [x; w] (var_axes x) (view_of_inds (kept_axes (var_axes x) indices) L) init (weighted agg pre indices) comb = Some r /\
    shape r = map zlen L /\
    forall p, position (map zlen L) p ->
      Ro (map (fun q => mul (pre (D q)) (wt q)) (fibre G (var_shape x) (gather L p))) (val r p).
Proof.
  intros R1 R2 O1 O2 O3 L HL. pose proof Hx as [Hsep _].
  set (h := fun q => mul (pre (D q)) (wt q)).
  apply (accumulate_view env Henv junk MAX HMAX (var_axes x) Hsep Hgood indices Hpos (fun l w => Ro (map h l) w) (fun l b => R (map h l) b)); auto.
  - intros l l' v Hp. apply O1. now apply Permutation_map.
  - intros l1 v l2 b H1 Hne H2. rewrite map_app. apply O3; auto. destruct l2; [congruence|discriminate].
  - intros c Hc. destruct (responds_part env Henv junk x D c Hx Hc) as (a & Ha & Hs & Hv).
    destruct (weights_got c Hc) as (b & Hb & Hba).
    destruct (zip_weights c (map_arr pre a) b (fun q => pre (D q)) Hc) as (r & Hr & Hra); [split; [exact Hs|]; intros p Hp; cbn [val map_arr]; now rewrite Hv|exact Hba|].
    destruct (block_reduced junk x indices Hnd Hlt agg h r R c R1 R2 Hc Hra) as (b' & Hb' & HR).
    exists [a; b], (np_reduce agg r indices), b'. cbn [map sequence]. rewrite Ha, Hb. split; [reflexivity|]. split; [cbn [weighted]; now rewrite Hr|]. split; assumption.
Qed.

Notation fibw := (fib x (fun q => (D q, wt q)) indices).

Lemma wsum_pre pre : answer x indices (fun v => accumulate env junk MAX [x; w] (var_axes x) v zero (weighted np_sum pre indices) add)
  (fun k => np_sum (map (fun vw => mul (pre (fst vw)) (snd vw)) (fibw k))).
Proof.
  intros L HL.
  destruct (weighted_answer np_sum pre zero add (fun l v => v = np_sum l) (fun l v => v = np_sum l)) with (L := L) as (r & Hr & Hs & Hv); auto.
  - intros v. cbn. symmetry. apply add_0_r.
  - intros ls vs H. rewrite np_sum_concat. f_equal. induction H; cbn; [reflexivity|]. congruence.
  - intros l l' v Hp ->. now apply np_sum_perm.
  - intros l1 v l2 b -> _ ->. symmetry. apply np_sum_app.
  - exists r. split; [exact Hr|]. split; [exact Hs|]. intros p Hp. rewrite (Hv p Hp). unfold fib. now rewrite map_map.
Qed.
Lemma wsum_answer : answer x indices (wsum_view env junk MAX x w indices) (fun k => np_sum (map times (fibw k))).
Proof. exact (wsum_pre (fun v => v)). Qed.
Lemma wsumsq_answer : answer x indices (wsumsq_view env junk MAX x w indices) (fun k => np_sum (map (fun vw => mul (mul (fst vw) (fst vw)) (snd vw)) (fibw k))).
Proof. exact (wsum_pre (fun v => mul v v)). Qed.

Lemma wnan_pre pre : (forall k, position (dropped G (var_shape x)) k -> summable (map (fun vw => mul (pre (fst vw)) (snd vw)) (fibw k))) ->
  answer x indices (fun v => accumulate env junk MAX [x; w] (var_axes x) v NaN (weighted np_nansum pre indices) (fun o b => np_nansum [o; b]))
  (fun k => np_nansum (map (fun vw => mul (pre (fst vw)) (snd vw)) (fibw k))).
Proof.
  intros Hsum L HL.
  destruct (weighted_answer np_nansum pre NaN (fun o b => np_nansum [o; b]) Rnan Onan Rnan_one Rnan_cat Onan_perm Onan_init Onan_comb L HL) as (r & Hr & Hs & Hv).
  exists r. split; [exact Hr|]. split; [exact Hs|]. intros p Hp. pose proof (selection_position x indices L p HL Hp) as Hk.
  specialize (Hv p Hp). specialize (Hsum _ Hk). unfold fib in *. rewrite map_map in *. destruct (Hv Hsum) as [H1 H2].
  cbn [fst snd] in *. rewrite <- H1. symmetry. apply n2z_id. apply H2.
  pose proof (fibre_ne junk x D indices Hred _ Hk) as Hne. unfold fib in Hne. now destruct (fibre _ _ _).
Qed.

Context (wq : list Z -> Qc) (Hfin : forall q, Dw q = Fin (wq q)).
Lemma weights_answer : answer x indices (weights_view env junk MAX x w indices) (fun k => np_sum (map snd (fibw k))).
Proof.
  intros L HL. pose proof Hx as [Hsep _].
  destruct (accumulate_view env Henv junk MAX HMAX (var_axes x) Hsep Hgood indices Hpos (fun l v => v = np_sum (map wt l)) (fun l v => v = np_sum (map wt l))
     zero add [x; w] (weight_sum indices)) with (L := L) as (r & Hr & Hs & Hv); auto.
  - intros l l' v Hp ->. now apply np_sum_perm, Permutation_map.
  - intros l1 v l2 b -> _ ->. rewrite map_app. symmetry. apply np_sum_app.
  - intros c Hc. destruct (responds_part env Henv junk x D c Hx Hc) as (a & Ha & Hs & Hv).
    destruct (weights_got c Hc) as (b & Hb & Hbs & Hbv). pose proof (Forall2_len _ _ _ Hc) as Hl.
    assert (length F = length (map zlen c)) as HF by (rewrite length_gone, map_length; exact Hl).
    set (g := gone_axes n indices) in *.
    destruct (np_reduce_spec np_sum (fun l v => v = np_sum l) indices b) as [Es Ev].
    { intros v. cbn. symmetry. apply add_0_r. }
    { intros ls vs H. rewrite np_sum_concat. f_equal. induction H; cbn; [reflexivity|]. congruence. }
    { exact Hnd. }
    { rewrite Hbs, length_thin, map_length, <- Hl by exact HF. exact Hlt. }
    cbv zeta in Es, Ev. rewrite Hbs in Es, Ev. rewrite length_thin, map_length, <- Hl in Es, Ev by exact HF. fold g in Es, Ev.
    assert (within F g) as Hin by exact within_flags.
    rewrite (dropped_thin F g) in Es, Ev by (auto; lia).
    set (f := div (num_of_Z (prod (shape a))) (mul (num_of_Z (prod (shape b))) (num_of_Z (prod (kept_axes (shape a) indices))))).
    assert (exists b', broadcast (map_arr (fun s => mul s f) (np_reduce np_sum b indices)) (map zlen (dropped g c)) = Some b' /\
       forall p, position (map zlen (dropped g c)) p -> val b' p = mul (val (np_reduce np_sum b indices) (zeros p)) f) as (b' & Hb' & Hbv').
    { unfold broadcast. cbn [shape map_arr]. rewrite Es, dropped_map, !map_length, Nat.eqb_refl. rewrite map_map.
      assert (forallb (fun '(m, n) => (m =? n) || (m =? 1)) (combine (map (fun _ => 1) (dropped g c)) (map zlen (dropped g c))) = true) as ->.
      { clear. induction (dropped g c) as [|l d IH]; cbn; [reflexivity|]. rewrite IH. now rewrite orb_true_r. }
      cbn [andb]. eexists. split; [reflexivity|]. intros p Hp. cbn [val map_arr]. f_equal. f_equal.
      pose proof (Forall2_len _ _ _ Hp) as Hpl. rewrite map_length in Hpl. clear -Hpl. revert p Hpl. induction (dropped g c) as [|l d IH]; intros [|y p] H; cbn in *; try lia; [reflexivity|]. f_equal. apply IH. lia. }
    exists [a; b], (map_arr (fun s => mul s f) (np_reduce np_sum b indices)), b'. cbn [map sequence]. rewrite Ha, Hb. split; [reflexivity|]. split; [reflexivity|]. split; [exact Hb'|].
    intros p Hp. change (gone (var_axes x) indices) with g in Hp |- *. rewrite (Hbv' p Hp). pose proof (Forall2_len _ _ _ Hp) as Hpl. rewrite map_length in Hpl.
    assert (length g = length c) as Hg by (unfold g; rewrite length_gone; exact Hl).
    rewrite <- (map_gather_fibl g c p Hg Hp), map_map.
    rewrite (Ev (zeros p)). 2:{ unfold zeros. rewrite !map_length, dropped_map, map_length. lia. }
    (* both sums are sums of finite numbers *)
    set (h := fun q => wq (map (fun i => nth i (gather c q) 0) along)).
    assert (forall q, wt (gather c q) = Fin (h q)) as Hh by (intros q; unfold weight_at, h; apply Hfin).
    assert (Forall (fun m => 0 < m) (map zlen c)) as Hp0.
    { apply Forall_map. clear -Hc. induction Hc as [|? l ? ? (H & _)]; constructor; [|assumption]. unfold zlen. destruct l; [congruence|cbn; lia]. }
    assert (length p = length (dropped g (map zlen c))) as Hpd by (rewrite dropped_map, map_length; lia).
    pose proof (thins_fibl F g (map zlen c) p Hin ltac:(lia) Hpd) as Hth. rewrite map_map in Hth.
    rewrite (map_ext (fun q => wt (gather c q)) (fun q => Fin (h q)) Hh).
    assert (map (val b) (product (fibl g (map (fun n => arange 0 n 1) (thin F (map zlen c))) (zeros p))) =
            map (fun q => Fin (h q)) (product (fibl g (map (fun n => arange 0 n 1) (thin F (map zlen c))) (zeros p)))) as Eb.
    { apply map_ext_in. intros q Hq. rewrite Hbv; [apply Hh|]. eapply (fibl_positions g); [rewrite length_thin; [rewrite map_length; lia|exact HF]| |exact Hq].
      rewrite (dropped_thin F g) by (auto; lia). rewrite dropped_map, map_map. unfold zeros. clear -Hpl. revert p Hpl.
      induction (dropped g c) as [|l d IH]; intros [|y p] H; cbn in *; try lia; constructor; [lia|]. apply IH. lia. }
    rewrite Eb. rewrite <- !(map_map h Fin), !np_sum_fin.
    rewrite (shrink_sum F _ _ Hth h).
    2:{ intros q q' Hsm. assert (Fin (h q) = Fin (h q')) as E; [|now injection E]. rewrite <- !Hh. unfold weight_at. f_equal.
        apply map_ext_in. intros i Hi. pose proof along_lt as Hlt'. rewrite Forall_forall in Hlt'. specialize (Hlt' i Hi).
        assert (length q = n /\ length q' = n) as [Hq1 Hq2].
        { assert (length F = n) as E by apply length_gone. clear -Hsm E. rewrite <- E. revert Hsm. generalize F. intros fl. clear. revert q q'.
          induction fl as [|f fl IH]; intros [|y q] [|y' q'] H; cbn in *; try easy. destruct H as [_ H]. destruct (IH q q' H). lia. }
        rewrite !(nth_gather junk) by lia. f_equal.
        assert (forall F q q' i, same F q q' -> nth_error F i = Some true -> nth i q 0 = nth i q' 0) as HH.
        { clear. induction F as [|f F IH]; intros [|y q] [|y' q'] [|i] H Hi; cbn in *; try easy; destruct H as [H1 H2]; [injection Hi as ->; auto|eauto]. }
        apply (HH F); [exact Hsm|]. rewrite nth_error_gone. destruct (Nat.ltb_spec i n); [|lia]. f_equal. now apply existsb_In. }
    pose proof (prod_split F g (map zlen c) p Hin ltac:(lia) Hpd Hp0) as Hps. rewrite map_map in Hps.
    assert (f = Fin (qz (prod (map zlen (dropped F (fibl g (map (fun l => arange 0 (zlen l) 1) c) p)))))) as ->.
    { unfold f. rewrite Hs, Hbs, kept_dropped, map_length, <- Hl. fold g. rewrite Hps.
      pose proof (prod_positive _ (thin_positive F _ Hp0)) as P1. pose proof (prod_positive _ (dropped_positive g _ Hp0)) as P2.
      unfold num_of_Z. cbn [mul]. rewrite div_fin.
      - f_equal. rewrite !qz_mul. field. split; intros E; [change (Q2Qc 0) with (qz 0) in E|change (Q2Qc 0) with (qz 0) in E]; apply qz_inj in E; lia.
      - rewrite <- qz_mul. intros E. change (Q2Qc 0) with (qz 0) in E. apply qz_inj in E. nia. }
    cbn [mul]. f_equal. ring.
  - exists r. split; [exact Hr|]. split; [exact Hs|]. intros p Hp. rewrite (Hv p Hp). unfold fib. now rewrite map_map.
Qed.
End Weighted.
