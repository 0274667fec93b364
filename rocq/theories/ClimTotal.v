(** Lemmas for the climatologies: the sums over the times of each group. *)
From Coq Require Import ZArith List Bool Lia ZifyBool Permutation QArith_base.
From Verif Require Import CalModel CalSpec TimeSearchModel TimeSearchSpec TimeSearchProofs TimeMapProofs TimeDateProofs SortSpec IndexModel IndexSpec IndexProofs ArrModel ArrProofs
  ViewModel ViewSpec ViewProofs AxisModel AxisSpec AxisProofs VarOpsModel VarOpsSpec VarOpsProofs NumModel NumProofs ReduceModel ReduceSpec UfuncModel UfuncView StencilModel StencilSpec StencilProofs IntgrProofs
  RespondProofs ChunkProofs LoopProofs BlockProofs FlattenProofs InterpView SmoothView CompositeProofs ConcatProofs ClimModel ClimSpec ClimSum ClimAxis ClimChunk ClimView.
Import ListNotations.
Open Scope Z_scope.
Notation zlen := IndexSpec.zlen.
Notation znth := ArrModel.znth.
Notation total := ClimSum.total.

(** *** one block *)
Lemma squash_set s p d n i m : (d < length s)%nat -> length p = length s -> nth_error s d = Some n -> 0 <= i < n -> set_at (squash (set_at s d m) p) d i = squash s (set_at p d i).
Proof.
  revert p d. induction s as [|k s IH]; intros p d Hd Hl Hn Hi; [destruct d; discriminate|]. destruct p as [|x p]; [discriminate|].
  destruct d as [|d]; cbn [set_at squash combine map].
  - injection Hn as ->. f_equal. destruct (Z.eqb_spec n 1); lia.
  - f_equal. apply IH; [cbn in Hd; lia|now injection Hl|exact Hn|exact Hi].
Qed.
Lemma nth_squash s p d m : position s p -> nth_error s d = Some m -> nth d (squash s p) 0 = nth d p 0.
Proof. intros H _. now rewrite squash_own. Qed.
Lemma nth_squash_set s t p d m : fits s t -> position (set_at t d m) p -> nth d (squash (set_at s d m) p) 0 = nth d p 0.
Proof.
  intros H. revert p d. induction H as [|a b s t Hab H IH]; intros p d Hp; [cbn in *; inversion Hp; now destruct d|].
  destruct d as [|d]; cbn [set_at] in *; inversion Hp as [|? x ? p' Hx Hp']; subst; cbn [squash combine map nth].
  - destruct (Z.eqb_spec m 1); lia.
  - now apply IH.
Qed.
Lemma position_squash s t p : fits s t -> position t p -> position s (squash s p).
Proof.
  intros H. revert p. induction H as [|a b s t Hab H IH]; intros p Hp; inversion Hp as [|? x ? p' Hx Hp']; subst; cbn; constructor; [|now apply IH].
  destruct (Z.eqb_spec a 1); lia.
Qed.

Definition wsum (skip : num -> bool) (x : num) : num := if skip x then zero else x.
Definition wcount (skip : num -> bool) (x : num) : Z := if skip x then 0 else 1.
Lemma total_skip skip (P : Z -> bool) (E : Z -> num) l :
  total add zero (map E (filter (fun i => P i && negb (skip (E i))) l)) = total add zero (map (fun i => wsum skip (E i)) (filter P l)).
Proof.
  induction l as [|i l IH]; [reflexivity|]. cbn [filter]. destruct (P i) eqn:EP; cbn [andb]; [|exact IH]. cbn [map]. unfold wsum at 1. destruct (skip (E i)); cbn [negb map].
  - rewrite IH. cbn [total fold_right]. unfold total. cbn [fold_right]. now rewrite add_0_l.
  - unfold total in *. cbn [fold_right]. now rewrite IH.
Qed.
Lemma count_skip skip (P : Z -> bool) (E : Z -> num) l :
  zlen (filter (fun i => P i && negb (skip (E i))) l) = total Z.add 0 (map (fun i => wcount skip (E i)) (filter P l)).
Proof.
  induction l as [|i l IH]; [reflexivity|]. cbn [filter]. destruct (P i) eqn:EP; cbn [andb]; [|exact IH]. cbn [map]. unfold wcount at 1. unfold total in *. cbn [fold_right].
  destruct (skip (E i)); cbn [negb]; [rewrite IH; lia|]. rewrite <- IH. unfold zlen. cbn [length]. lia.
Qed.
Lemma filter_map_znth {B} (f : Z -> B) (P : Z -> bool) (l : list Z) :
  map f (filter P l) = map (fun i => f (znth l i)) (filter (fun i => P (znth l i)) (arange 0 (zlen l) 1)).
Proof.
  assert (l = map (znth l) (arange 0 (zlen l) 1)) as El.
  { apply list_ext. intros i x. rewrite elem_map. split.
    - intros H. exists i. split; [apply elem_arange01; split; [reflexivity|exact (elem_lt _ _ _ H)]|symmetry; now apply znth_elem].
    - intros (j & Hj & ->). apply elem_arange01 in Hj as [-> Hj]. now apply elem_znth. }
  rewrite El at 1. generalize (arange 0 (zlen l) 1). intros r. induction r as [|i r IH]; [reflexivity|]. cbn [map filter]. destruct (P (znth l i)); cbn [map]; now rewrite IH.
Qed.

Section Block.
Context (skip : num -> bool) (c : list (list Z)) (ti : nat) (Hti : (ti < length c)%nat) (Hne : nth ti c [] <> []) (nout : Z) (Hnout : 0 <= nout)
        (outmap : list Z) (Hout : forall k, In k (nth ti c []) -> 0 <= znth outmap k < nout) (g : list Z -> num)
        (a : arr num) (Ha : shows (map zlen c) a (fun p => g (gather c p))) (Hal : along (map zlen c) ti a).
Notation bins := (map (znth outmap) (nth ti c [])).
Lemma shape_at : nth_error (shape a) ti = Some (zlen (nth ti c [])).
Proof. rewrite Hal, nth_error_map, (nth_error_nth' c [] Hti). reflexivity. Qed.
Lemma shape_pos : Forall (fun n => 0 <= n) (shape a).
Proof.
  destruct Ha as [Hf _]. clear -Hf. revert Hf. generalize (shape a). intros s H. assert (Forall (fun n => 0 <= n) (map zlen c)) as Hc.
  { apply Forall_map, Forall_forall. intros l _. unfold zlen. lia. }
  induction H as [|x y s t Hxy H IH]; [constructor|]. inversion Hc; subst. constructor; [destruct Hxy; lia|auto].
Qed.
Lemma block_total : exists out count, partial_sum skip a nout ti bins = Some (out, count) /\
  (exists b, broadcast out (set_at (map zlen c) ti nout) = Some b /\ forall p, position (set_at (map zlen c) ti nout) p ->
     val b p = total add zero (map (fun k => wsum skip (g (set_at (gather c p) ti k))) (filter (fun k => znth outmap k =? nth ti p 0) (nth ti c [])))) /\
  (exists b, broadcast count (set_at (map zlen c) ti nout) = Some b /\ forall p, position (set_at (map zlen c) ti nout) p ->
     val b p = total Z.add 0 (map (fun k => wcount skip (g (set_at (gather c p) ti k))) (filter (fun k => znth outmap k =? nth ti p 0) (nth ti c [])))).
Proof.
  pose proof shape_at as Hs. assert (ti < length (shape a))%nat as Hts by (apply nth_error_Some; congruence).
  destruct Ha as [Hf Hv].
  destruct (partial_sum_spec skip a (shape a) (val a) ti nout bins) as (out & count & Hps & So & Sc & Hval).
  - split; [reflexivity|auto].
  - exact Hts.
  - exact shape_pos.
  - exact Hnout.
  - intros E. apply map_eq_nil in E. contradiction.
  - rewrite zlen_map. symmetry. now apply nth_error_nth.
  - apply Forall_forall. intros o Ho. apply in_map_iff in Ho as (k & <- & Hk). now apply Hout.
  - exists out, count. split; [exact Hps|]. rewrite (nth_error_nth _ _ 0 Hs) in Hval.
    assert (forall p, position (set_at (map zlen c) ti nout) p ->
       position (set_at (shape a) ti nout) (squash (set_at (shape a) ti nout) p) /\ nth ti (squash (set_at (shape a) ti nout) p) 0 = nth ti p 0 /\
       forall i, In i (arange 0 (zlen (nth ti c [])) 1) -> val a (set_at (squash (set_at (shape a) ti nout) p) ti i) = g (set_at (gather c p) ti (znth (nth ti c []) i))) as Hp'.
    { intros p Hp. pose proof (fits_set _ _ ti nout Hf) as Hf'. split; [exact (position_squash _ _ _ Hf' Hp)|]. split; [exact (nth_squash_set _ _ _ _ _ Hf Hp)|].
      intros i Hi. apply In_arange1 in Hi. rewrite (squash_set _ _ _ (zlen (nth ti c []))); [|exact Hts| |exact Hs|lia].
      - rewrite Hv; [now rewrite gather_set_p|]. apply (position_set_shape _ _ _ (zlen (nth ti c [])) nout Hp); [|lia]. rewrite <- Hal. exact Hs.
      - rewrite <- (Forall2_len _ _ _ Hp), length_set_at. symmetry. exact (Forall2_len _ _ _ Hf). }
    assert (forall p, position (set_at (map zlen c) ti nout) p -> forall i, In i (arange 0 (zlen (nth ti c [])) 1) -> znth bins i = znth outmap (znth (nth ti c []) i)) as Hb.
    { intros p _ i Hi. apply In_arange1 in Hi. apply znth_elem, elem_map. exists (znth (nth ti c []) i). split; [apply elem_znth; lia|reflexivity]. }
    split.
    + destruct (broadcast_fits out (set_at (map zlen c) ti nout)) as (b & Eb & _ & Vb); [rewrite So; now apply fits_set|]. exists b. split; [exact Eb|].
      intros p Hp. rewrite Vb. fold (squash (shape out) p). rewrite So. destruct (Hp' p Hp) as (P1 & P2 & P3). destruct (Hval _ P1) as [V1 _]. rewrite V1.
      rewrite (total_skip skip (fun i => znth bins i =? nth ti (squash (set_at (shape a) ti nout) p) 0)). rewrite P2.
      rewrite (filter_map_znth (fun k => wsum skip (g (set_at (gather c p) ti k)))). f_equal.
      rewrite (filter_ext_in _ (fun i => znth outmap (znth (nth ti c []) i) =? nth ti p 0)) by (intros i Hi; now rewrite (Hb p Hp i Hi)).
      apply map_ext_in. intros i Hi. apply filter_In in Hi as [Hi _]. f_equal. now apply P3.
    + destruct (broadcast_fits count (set_at (map zlen c) ti nout)) as (b & Eb & _ & Vb); [rewrite Sc; now apply fits_set|]. exists b. split; [exact Eb|].
      intros p Hp. rewrite Vb. fold (squash (shape count) p). rewrite Sc. destruct (Hp' p Hp) as (P1 & P2 & P3). destruct (Hval _ P1) as [_ V1]. rewrite V1.
      rewrite (count_skip skip (fun i => znth bins i =? nth ti (squash (set_at (shape a) ti nout) p) 0)). rewrite P2.
      rewrite (filter_map_znth (fun k => wcount skip (g (set_at (gather c p) ti k)))). f_equal.
      rewrite (filter_ext_in _ (fun i => znth outmap (znth (nth ti c []) i) =? nth ti p 0)) by (intros i Hi; now rewrite (Hb p Hp i Hi)).
      apply map_ext_in. intros i Hi. apply filter_In in Hi as [Hi _]. f_equal. now apply P3.
Qed.
End Block.

(** *** all of the blocks *)


Lemma Zadd_monoid : cmonoid Z.add 0.
Proof. split; intros; lia. Qed.

Section View.
Context (env : axenv) (Henv : env_ok env) (lexsort : list (list Z) -> list Z) (Hlex : lexsort_ok lexsort) (junk : list Z -> num) (MAX : Z) (HMAX : 1 <= MAX).
Notation ops := (axis_ops env).
Notation var := (ViewModel.var axis num).
Notation get := (ViewModel.get ops junk).
Context (A : list axis) (Hsep : separate A) (Hgood : Forall good_axis A) (ti : nat) (t : taxis) (Ht : nth_error A ti = Some (Time t))
        (Honly : forall i s, nth_error A i = Some (Time s) -> i = ti)
        (u : taxis) (Hu : good_axis (Time u)) (Hcl : t_class u = t_class t) (Hsub : mask_sub (t_mask u) (t_mask t) = true)
        (Hin : forall r, In r (records (t_mask u) u) -> In r (records (t_mask u) t)).
Notation A' := (set_at A ti (Time u)).
Context (K : list (list Z)) (HK : Forall2 selection A' K).
Notation Kt := (nth ti K []).
Notation B := (set_at (O env A ti u K) ti (Time t)).
Notation pok := (pairs_ok ti t u K).

Lemma pairs_times m j : pok m -> 0 <= j < zlen Kt ->
  Permutation (map (znth (map fst m)) (filter (fun k => znth (map snd m) k =? j) (arange 0 (zlen m) 1))) (times_on t u (znth Kt j)).
Proof.
  intros Hm Hj. pose proof Hm as (Hnd & _ & Hpm).
  assert (forall k, 0 <= k < zlen m -> In (znth (map fst m) k, znth (map snd m) k) m) as Hk.
  { intros k Hk. destruct (nth_error m (Z.to_nat k)) as [[i j']|] eqn:E; [|apply nth_error_None in E; unfold zlen in Hk; lia].
    rewrite (znth_elem (map fst m) k i), (znth_elem (map snd m) k j'); [eapply nth_error_In; exact E| |]; (split; [lia|rewrite nth_error_map, E; reflexivity]). }
  apply NoDup_Permutation.
  - apply NoDup_map_in.
    + intros x y Hx Hy E. apply filter_In in Hx as [Hx _], Hy as [Hy _]. apply In_arange1 in Hx, Hy.
      assert (NoDup (map fst m)) as Hd by (exact (pairs_fst_NoDup A Hgood ti t Ht Honly u Hu K HK m Hm)).
      pose proof (elem_znth (map fst m) x) as E1. pose proof (elem_znth (map fst m) y) as E2. rewrite zlen_map in E1, E2. specialize (E1 ltac:(lia)). specialize (E2 ltac:(lia)). rewrite <- E in E2.
      exact (NoDup_at _ _ _ _ Hd E1 E2).
    + apply NoDup_filter, increasing_NoDup, SmoothView.increasing_arange1.
  - apply NoDup_filter, increasing_NoDup, SmoothView.increasing_arange1.
  - intros i. unfold times_on. rewrite in_map_iff, filter_In. split.
    + intros (k & <- & Hx). apply filter_In in Hx as [Hx Ek]. apply In_arange1 in Hx. apply Z.eqb_eq in Ek. specialize (Hk k Hx). rewrite Ek in Hk. apply Hpm in Hk as (Bi & _ & E).
      split; [apply In_arange1; lia|]. destruct list_eq_dec; [reflexivity|contradiction].
    + intros [Bi E]. apply In_arange1 in Bi. destruct list_eq_dec as [E'|]; [|discriminate]. assert (In (i, j) m) as Hij by (apply Hpm; auto).
      apply In_nth_error in Hij as (n & Hn). exists (Z.of_nat n). assert ((n < length m)%nat) as Ln by (apply nth_error_Some; congruence).
      split; [apply znth_elem; split; [lia|rewrite Nat2Z.id, nth_error_map, Hn; reflexivity]|].
      apply filter_In. split; [apply In_arange1; unfold zlen; lia|]. apply Z.eqb_eq. apply znth_elem. split; [lia|rewrite Nat2Z.id, nth_error_map, Hn; reflexivity].
Qed.

Definition adds {W} (op : W -> W -> W) (e : W) (wf : list Z -> W) (r : arr W) : Prop := shape r = map zlen K /\
  forall p, position (map zlen K) p -> val r p = total op e (map (fun i => wf (set_at (gather K p) ti i)) (times_on t u (znth Kt (nth ti p 0)))).

Theorem accumulated {W} (op : W -> W -> W) (e : W) (M : cmonoid op e) (wf : list Z -> W) (x : var) (rest : list var) (block : list (arr num) -> list Z -> option (arr W)) : var_axes x = A ->
  (forall m, pok m -> forall c se, LoopProofs.cut (upto (sizes ti K m)) se c ->
     exists data, sequence (map (fun y => get (view_of_inds B (read_inds ti m c)) y true true) (x :: rest)) = Some data /\
       exists b b', block data (map (znth (map snd m)) (nth ti c [])) = Some b /\ broadcast b (set_at (map zlen c) ti (zlen Kt)) = Some b' /\
         forall p, position (set_at (map zlen c) ti (zlen Kt)) p ->
           val b' p = total op e (map (fun k => wf (origin ti K m (set_at (gather c p) ti k))) (filter (fun k => znth (map snd m) k =? nth ti p 0) (nth ti c [])))) ->
  exists r, accumulate env lexsort junk MAX (x :: rest) (view_of_inds A' K) e op block = Some r /\ adds op e wf r.
Proof.
  intros Hx Hblock.
  destruct (loop_items env Henv lexsort Hlex junk MAX HMAX A Hgood ti t Ht Honly u Hu Hcl Hsub Hin K HK x rest
     (fun m c data => exists b b', block data (map (znth (map snd m)) (nth ti c [])) = Some b /\ broadcast b (set_at (map zlen c) ti (zlen Kt)) = Some b' /\
         forall p, position (set_at (map zlen c) ti (zlen Kt)) p ->
           val b' p = total op e (map (fun k => wf (origin ti K m (set_at (gather c p) ti k))) (filter (fun k => znth (map snd m) k =? nth ti p 0) (nth ti c [])))) Hx Hblock)
    as (m & its & Hm & Hl & Hits).
  pose proof (ti_lt A ti t Ht) as Hlt. pose proof (K_len A ti u K HK) as HKl.
  assert (ti < length (map zlen K))%nat as Htk by (rewrite map_length, HKl; exact Hlt).
  assert (set_at (sizes ti K m) ti (zlen Kt) = map zlen K) as Es.
  { unfold sizes. rewrite set_at_set. apply set_at_nth. rewrite nth_error_map, (nth_error_nth' K []) by (rewrite HKl; exact Hlt). reflexivity. }
  assert (nth ti (sizes ti K m) 0 = zlen m) as En by (unfold sizes; now apply nth_set_same).
  assert (0 < zlen Kt) as HKt.
  { destruct (Kt_sel A Hgood ti t Ht u Hu K HK) as (Hne & _ & _). unfold zlen. destruct Kt; [contradiction|cbn; lia]. }
  destruct (add_pieces op e M ti (map snd m) (zlen Kt) HKt (sizes ti K m)) with (w := fun q => wf (origin ti K m q)) (block := block) (MAX := MAX) (its := its) as (r & Hr & Hrs & Hrv).
  - apply (sizes_pos junk A Hgood ti t Ht Honly u Hu Hin K HK). apply Hm.
  - unfold sizes. rewrite length_set_at. exact Htk.
  - exact HMAX.
  - eapply Forall2_impl; [|exact Hits]. cbv beta. intros c it (data & -> & b & b' & Hb & Hb' & Hv). exists b, b'. split; [reflexivity|]. split; [exact Hb|]. split; [exact Hb'|exact Hv].
  - exists r. rewrite Es in Hr, Hrs, Hrv. split.
    + unfold accumulate. rewrite Hl. cbn [bind]. exact Hr.
    + split; [exact Hrs|]. intros p Hp. rewrite (Hrv p Hp), En.
      assert (0 <= nth ti p 0 < zlen Kt) as Bp.
      { apply (position_at _ _ _ _ Hp). rewrite nth_error_map, (nth_error_nth' K []) by (rewrite HKl; exact Hlt). reflexivity. }
      unfold total. rewrite <- (total_perm op e M _ _ (Permutation_map _ (pairs_times m (nth ti p 0) Hm Bp))). rewrite map_map. f_equal. apply map_ext_in. intros k Hk.
      unfold origin. rewrite gather_set_p, set_at_set. rewrite nth_set_same; [reflexivity|]. rewrite <- (Forall2_len _ _ _ Hp). exact Htk.
Qed.

(** [f] makes, of the data read for each piece, the values [G] *)
Definition makes (x : var) (rest : list var) (f : list (arr num) -> option (arr num)) (G : list Z -> num) : Prop :=
  forall m, pok m -> forall c se, LoopProofs.cut (upto (sizes ti K m)) se c ->
    exists data a, sequence (map (fun y => get (view_of_inds B (read_inds ti m c)) y true true) (x :: rest)) = Some data /\ f data = Some a /\
      shows (map zlen c) a (fun p => G (origin ti K m (gather c p))) /\ along (map zlen c) ti a.
Lemma pieces_ok m c se : pok m -> LoopProofs.cut (upto (sizes ti K m)) se c -> (ti < length c)%nat /\ nth ti c [] <> [] /\ forall k, In k (nth ti c []) -> 0 <= znth (map snd m) k < zlen Kt.
Proof.
  intros Hm Hc. pose proof (ti_lt A ti t Ht) as Hlt.
  split; [rewrite (c_len junk A Hgood ti t Ht Honly u Hu Hin K HK m Hm c se Hc); exact Hlt|].
  destruct (c_nth junk A Hgood ti t Ht Honly u Hu Hin K HK m Hm c se Hc ti Hlt) as (s & e & Ec & Hse & He).
  rewrite (nth_error_nth _ _ [] Ec). split.
  - intros E. assert (In s (arange s e 1)) as Q by (apply In_arange1; lia). rewrite E in Q. destruct Q.
  - intros k Hk. apply In_arange1 in Hk. unfold sizes in He. rewrite nth_set_same in He by (rewrite map_length, (K_len A ti u K HK); exact Hlt).
    apply (pairs_snd A Hgood ti t Ht Honly u Hu Hin K HK m); [exact Hm|]. destruct (elem_znth (map snd m) k) as [_ Q]; [rewrite zlen_map; lia|]. apply nth_error_In in Q. exact Q.
Qed.
Lemma shape_Kt : nth ti (vshape (view_of_inds A' K)) 0 = zlen Kt.
Proof. unfold vshape, view_of_inds. cbn [vinds]. change 0 with (zlen (@nil Z)). apply map_nth. Qed.
Theorem sums_spec skip f x rest G : var_axes x = A -> makes x rest f G ->
  exists r, sums env lexsort junk MAX skip f (x :: rest) ti (view_of_inds A' K) = Some r /\ adds add zero (fun q => wsum skip (G q)) r.
Proof.
  intros Hx HG. unfold sums. apply (accumulated add zero add_monoid); [exact Hx|]. intros m Hm c se Hc. destruct (HG m Hm c se Hc) as (data & a & Hd & Hf & Ha & Hal).
  destruct (pieces_ok m c se Hm Hc) as (H1 & H2 & H3).
  destruct (block_total skip c ti H1 H2 (zlen Kt) ltac:(unfold zlen; lia) (map snd m) H3 (fun p => G (origin ti K m p)) a Ha Hal) as (out & count & Hps & (b & Hb & Vb) & _).
  exists data. split; [exact Hd|]. exists out, b. rewrite Hf. cbn [bind]. rewrite shape_Kt, Hps. split; [reflexivity|]. split; [exact Hb|exact Vb].
Qed.
Theorem counts_spec skip f x rest G : var_axes x = A -> makes x rest f G ->
  exists r, counts env lexsort junk MAX skip f (x :: rest) ti (view_of_inds A' K) = Some r /\ adds Z.add 0 (fun q => wcount skip (G q)) r.
Proof.
  intros Hx HG. unfold counts. apply (accumulated Z.add 0 Zadd_monoid); [exact Hx|]. intros m Hm c se Hc. destruct (HG m Hm c se Hc) as (data & a & Hd & Hf & Ha & Hal).
  destruct (pieces_ok m c se Hm Hc) as (H1 & H2 & H3).
  destruct (block_total skip c ti H1 H2 (zlen Kt) ltac:(unfold zlen; lia) (map snd m) H3 (fun p => G (origin ti K m p)) a Ha Hal) as (out & count & Hps & _ & (b & Hb & Vb)).
  exists data. split; [exact Hd|]. exists count, b. rewrite Hf. cbn [bind]. rewrite shape_Kt, Hps. split; [reflexivity|]. split; [exact Hb|exact Vb].
Qed.

Lemma makes_data x D : responds env x D -> var_axes x = A -> makes x [] the_data D.
Proof.
  intros Hx EA m Hm c se Hc. destruct (read_data env Henv junk A Hsep Hgood ti t Ht Honly u Hu Hin K HK m Hm c se Hc x D Hx EA) as (r & Hr & Ha).
  exists [r], r. split; [cbn [map sequence]; rewrite Hr; reflexivity|]. split; [reflexivity|]. split; [apply shows_array; exact Ha|]. unfold along. now rewrite (proj1 Ha).
Qed.
Lemma makes_squares x D : responds env x D -> var_axes x = A -> makes x [] squared (fun q => mul (D q) (D q)).
Proof.
  intros Hx EA m Hm c se Hc. destruct (makes_data x D Hx EA m Hm c se Hc) as (data & a & Hd & Hf & Ha & Hal).
  exists data, (op1 (fun x => mul x x) a). split; [exact Hd|]. unfold the_data in Hf. unfold squared. rewrite Hf. split; [reflexivity|].
  split; [exact (op1_shows (fun x => mul x x) _ _ _ Ha)|exact Hal].
Qed.

(** with the times as a second variable *)
Section Two.
Context (x y : var) (D S : list Z -> num) (Hx : responds env x D) (EA : var_axes x = A) (Hy : responds env y S) (EY : var_axes y = [Time t]).
Lemma both_read m c se : pok m -> LoopProofs.cut (upto (sizes ti K m)) se c -> exists a b,
  sequence (map (fun y => get (view_of_inds B (read_inds ti m c)) y true true) [x; y]) = Some [a; b] /\
  array_is a (map zlen c) (fun p => D (origin ti K m (gather c p))) /\
  shows (map zlen c) b (fun p => S [nth ti (origin ti K m (gather c p)) 0]) /\ along (map zlen c) ti b.
Proof.
  intros Hm Hc. destruct (read_data env Henv junk A Hsep Hgood ti t Ht Honly u Hu Hin K HK m Hm c se Hc x D Hx EA) as (a & Ha & Aa).
  destruct (read_time env Henv junk A Hsep Hgood ti t Ht Honly u Hu Hin K HK m Hm c se Hc y S Hy EY) as (b & Hb & Ab).
  exists a, b. split; [cbn [map sequence]; rewrite Ha, Hb; reflexivity|]. split; [exact Aa|].
  pose proof (c_len junk A Hgood ti t Ht Honly u Hu Hin K HK m Hm c se Hc) as Lc. pose proof (ti_lt A ti t Ht) as Hlt.
  assert (fits (outshape (map zlen c) [ti]) (map zlen c)) as Hfit.
  { apply Forall2_intro_nth; [unfold outshape; rewrite map_length, combine_length, seq_length; lia|]. intros i p q Hp Hq. unfold outshape in Hp.
    rewrite nth_error_map, nth_error_combine, nth_error_seq, Hq in Hp. destruct (Nat.ltb_spec i (length (map zlen c))); [|discriminate]. cbn in Hp.
    destruct (Nat.eqb i ti); cbn in Hp; injection Hp as <-; auto. }
  assert (nth_error (outshape (map zlen c) [ti]) ti = nth_error (map zlen c) ti) as Hat.
  { unfold outshape. rewrite nth_error_map, nth_error_combine, nth_error_seq. destruct (Nat.ltb_spec ti (length (map zlen c))) as [H|H]; [|rewrite map_length in H; lia].
    rewrite (nth_error_nth' _ 0 H). cbn. now rewrite Nat.eqb_refl. }
  destruct Ab as [Sb Vb]. split; [|unfold along; rewrite Sb; exact Hat].
  split; [rewrite Sb; exact Hfit|]. intros p Hp. rewrite Sb. rewrite Vb by (exact (position_squash _ _ _ Hfit Hp)). f_equal. f_equal. unfold origin.
  pose proof (Forall2_len _ _ _ Hp) as Lp. rewrite map_length in Lp.
  rewrite nth_set_same by (rewrite length_gather; rewrite (K_len A ti u K HK); [exact Hlt|rewrite length_gather; lia]). f_equal.
  assert (nth ti (squash (outshape (map zlen c) [ti]) p) 0 = nth ti p 0) as Eq.
  { assert (exists n, nth_error (map zlen c) ti = Some n) as (n & En) by (rewrite nth_error_map, (nth_error_nth' c []) by lia; eexists; reflexivity).
    pose proof (position_at _ _ _ _ Hp En) as Bp. rewrite En in Hat. apply nth_error_nth. unfold squash. rewrite nth_error_map, nth_error_combine, Hat, (nth_error_nth' p 0) by lia. cbn.
    destruct (Z.eqb_spec n 1); [f_equal; lia|reflexivity]. }
  rewrite (nth_gather junk c), (nth_gather junk c), Eq; try lia. unfold squash. rewrite map_length, combine_length, (Forall2_len _ _ _ Hfit), map_length. lia.
Qed.
Lemma makes_first : makes x [y] the_data D.
Proof.
  intros m Hm c se Hc. destruct (both_read m c se Hm Hc) as (a & b & Hd & Ha & _). exists [a; b], a. split; [exact Hd|]. split; [reflexivity|].
  split; [now apply shows_array|]. unfold along. now rewrite (proj1 Ha).
Qed.
Lemma makes_times : makes x [y] the_times (fun q => S [nth ti q 0]).
Proof. intros m Hm c se Hc. destruct (both_read m c se Hm Hc) as (a & b & Hd & _ & Hb & Hal). exists [a; b], b. split; [exact Hd|]. split; [reflexivity|]. split; [exact Hb|exact Hal]. Qed.
Lemma makes_times_squared : makes x [y] times_squared (fun q => mul (S [nth ti q 0]) (S [nth ti q 0])).
Proof.
  intros m Hm c se Hc. destruct (both_read m c se Hm Hc) as (a & b & Hd & _ & Hb & Hal). exists [a; b], (op1 (fun x => mul x x) b). split; [exact Hd|]. split; [reflexivity|].
  split; [exact (op1_shows (fun x => mul x x) _ _ _ Hb)|exact Hal].
Qed.
Lemma makes_data_times : makes x [y] data_times (fun q => mul (D q) (S [nth ti q 0])).
Proof.
  intros m Hm c se Hc. destruct (both_read m c se Hm Hc) as (a & b & Hd & [Sa Va] & [Fb Vb] & Hal).
  destruct (broadcast_fits b (shape a)) as (b' & Eb & Sb' & Vb'); [rewrite Sa; exact Fb|].
  exists [a; b], (Arr (shape a) (fun p => mul (val a p) (val b' p))). split; [exact Hd|].
  split; [unfold data_times; cbn [nth_error bind]; unfold zip_to; rewrite Eb; reflexivity|]. rewrite Sa. split; [|reflexivity].
  apply shows_array. split; [reflexivity|]. intros p Hp. cbn [val]. rewrite Va, Vb' by exact Hp. f_equal. exact (Vb p Hp).
Qed.
End Two.
End View.
