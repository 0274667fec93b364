(** argmax and argmin. *)
From Coq Require Import ZArith List Bool Lia QArith_base Qcanon Permutation.
From Verif Require Import SortSpec IndexModel IndexSpec IndexProofs ChunkProofs ArrModel ArrProofs ViewModel ViewSpec ViewProofs AxisModel AxisSpec AxisProofs
     VarOpsModel VarOpsSpec VarOpsProofs NumModel ReduceModel ReduceSpec NumProofs FibreProofs LoopProofs RespondProofs ReduceProofs ReduceKinds.
Import ListNotations.
Open Scope Z_scope.

Lemma increasing_bound l n : increasing l -> in_range n l -> zlen l <= Z.max 0 n.
Proof.
  intros Hi Hr. apply increasing_NoDup in Hi. assert (length l <= length (arange 0 n 1))%nat as H.
  { apply NoDup_incl_length; [exact Hi|]. intros y Hy. unfold in_range in Hr. rewrite Forall_forall in Hr. specialize (Hr y Hy).
    apply (elem_In _ y). apply elem_arange; lia. }
  destruct (Z.le_gt_cases 0 n).
  - pose proof (zlen_arange n ltac:(lia)). unfold zlen in *. lia.
  - destruct l as [|y l]; [unfold zlen; cbn; lia|]. inversion Hr; lia.
Qed.

Lemma Forall2_skip {A B} (R : A -> B -> Prop) l l' : Forall2 R l l' -> forall i, Forall2 R (skipn i l) (skipn i l').
Proof. induction 1; intros [|i]; cbn; auto. Qed.

Lemma sizes_le M : forall ys, Forall2 (fun l l' : list Z => zlen l <= zlen l') M (map (fun a => arange 0 (axis_len a) 1) ys) ->
  Forall2 (fun a b => 0 <= a <= b) (map zlen M) (map axis_len ys).
Proof.
  induction M as [|l M IH]; intros [|y ys] H; inversion H; subst; cbn [map]; constructor; [|now apply IH].
  rewrite zlen_arange in * by apply axis_len_nonneg. unfold zlen in *. lia.
Qed.

(** *** axes that are not split *)
Lemma others_loop_rest inds ot : forall m L i, ~ In i ot -> nth i (others_loop inds ot m L) [] = nth i L [].
Proof.
  induction ot as [|j ot IH]; intros m L i Hi; [reflexivity|]. cbn [others_loop]. rewrite IH by (intros ?; apply Hi; now right).
  destruct (Nat.ltb_spec j (length L)) as [H|H].
  - rewrite nth_set_at by exact H. destruct (Nat.eqb_spec j i); [|reflexivity]. exfalso. apply Hi. now left.
  - assert (forall l : list (list (list Z)), (length l <= j)%nat -> forall v, set_at l j v = l) as HH.
    { clear. revert j. intros j l. revert j. induction l as [|y l IH]; intros [|j] H v; cbn in *; try lia; try reflexivity. rewrite IH by lia. reflexivity. }
    now rewrite HH.
Qed.
Lemma split_axis_whole l : l <> [] -> split_axis l (zlen l) = [l].
Proof.
  intros H. unfold split_axis. change (Z.of_nat (length l)) with (zlen l).
  assert (0 < zlen l) as Hp by (unfold zlen; destruct l; [congruence|cbn; lia]).
  assert (arange 0 (zlen l) (zlen l) = [0]) as ->.
  { unfold arange. destruct (Z.ltb_spec 0 (zlen l)); [|lia]. replace ((zlen l - 0 + zlen l - 1) / zlen l) with 1; [reflexivity|].
    apply (Z.div_unique _ _ _ (zlen l - 1)); lia. }
  cbn [map]. rewrite Z.add_0_l, Z.min_id. unfold subrange. cbn [Z.to_nat skipn]. unfold zlen. rewrite ?Z.sub_0_r, ?Nat2Z.id, ?Nat.sub_0_r. now rewrite firstn_all.
Qed.
Lemma others_loop_whole inds pre i post : forall m L, NoDup (pre ++ i :: post) -> (i < length L)%nat ->
  (forall j, In j (pre ++ [i]) -> 1 <= zlen (nth j inds [])) ->
  prodover (fun j => zlen (nth j inds [])) (pre ++ [i]) <= m ->
  nth i (others_loop inds (pre ++ i :: post) m L) [] = split_axis (nth i inds []) (zlen (nth i inds [])).
Proof.
  induction pre as [|j pre IH]; intros m L Hnd Hi Hp Hm; cbn [app others_loop] in *.
  - rewrite others_loop_rest by (now inversion Hnd). rewrite nth_set_at by exact Hi. rewrite Nat.eqb_refl. f_equal.
    cbn [prodover fold_right] in Hm. unfold zlen in *. lia.
  - cbn [prodover fold_right] in Hm. fold (prodover (fun j => zlen (nth j inds [])) (pre ++ [i])) in Hm.
    assert (1 <= prodover (fun j => zlen (nth j inds [])) (pre ++ [i])) as H1.
    { clear -Hp. assert (forall k, In k (pre ++ [i]) -> 1 <= zlen (nth k inds [])) as H by (intros; apply Hp; now right). clear Hp.
      induction (pre ++ [i]) as [|k l IH]; cbn [prodover fold_right]; [lia|]. fold (prodover (fun j => zlen (nth j inds [])) l).
      specialize (IH ltac:(intros; apply H; now right)). specialize (H k (or_introl eq_refl)). nia. }
    pose proof (Hp j (or_introl eq_refl)) as H2. apply IH.
    + now inversion Hnd.
    + now rewrite length_set_at.
    + intros; apply Hp; now right.
    + change (Z.of_nat (length (nth j inds []))) with (zlen (nth j inds [])). rewrite Z.min_r by nia. apply Z.div_le_lower_bound; [lia|]. exact Hm.
Qed.

Lemma prodover_map f g s : prodover f (map g s) = prodover (fun i => f (g i)) s.
Proof. unfold prodover. induction s as [|k s IH]; cbn [map fold_right]; [reflexivity|]. now rewrite IH. Qed.
Lemma prodover_skipn (J : list (list Z)) i : prodover (fun j => zlen (nth j J [])) (seq i (length J - i)) = prod (map zlen (skipn i J)).
Proof.
  revert i. induction J as [|l J IH]; intros i; [destruct i; reflexivity|]. destruct i as [|i].
  - cbn [length Nat.sub seq skipn map]. change (prod (zlen l :: map zlen J)) with (zlen l * prod (map zlen J)).
    specialize (IH 0%nat). rewrite Nat.sub_0_r in IH. cbn [skipn] in IH. rewrite <- IH. rewrite <- seq_shift.
    change (zlen l * prodover (fun j => zlen (nth j (l :: J) [])) (map S (seq 0 (length J))) = zlen l * prodover (fun j => zlen (nth j J [])) (seq 0 (length J))).
    now rewrite prodover_map.
  - cbn [length skipn]. rewrite <- IH. rewrite Nat.sub_succ. rewrite <- seq_shift. now rewrite prodover_map.
Qed.
Lemma prodover_perm f l l' : Permutation l l' -> prodover f l = prodover f l'.
Proof. unfold prodover. induction 1; cbn; lia. Qed.

Lemma loop_mem_whole MAX J c i : Forall (fun l => l <> []) J -> (i < length J)%nat -> prod (map zlen (skipn i J)) <= MAX ->
  In c (loop_mem MAX J []) -> nth i c [] = nth i J [].
Proof.
  intros Hne Hi Hm Hc. unfold loop_mem in Hc. cbn [preserve_loop existsb] in Hc.
  assert (filter (fun _ : nat => negb false) (seq 0 (length J)) = seq 0 (length J)) as E.
  { generalize (seq 0 (length J)). intros s. induction s as [|k s IH]; [reflexivity|]. cbn [filter negb] in *. now rewrite IH. }
  rewrite E in Hc. clear E.
  assert (rev (seq 0 (length J)) = rev (seq (S i) (length J - S i)) ++ i :: rev (seq 0 i)) as E.
  { replace (length J) with (i + (1 + (length J - S i)))%nat at 1 by lia. rewrite seq_app. cbn [seq Nat.add]. rewrite rev_app_distr. cbn [rev].
    rewrite <- app_assoc. reflexivity. }
  rewrite E in Hc. apply In_elem in Hc as (k & Hk). apply product_elem_Forall2 in Hk.
  assert (Forall (fun l => 1 <= zlen l) J) as Hp.
  { eapply Forall_impl; [|exact Hne]. intros [|? ?] H; [congruence|]. unfold zlen. cbn [length]. lia. }
  pose proof (others_loop_whole J (rev (seq (S i) (length J - S i))) i (rev (seq 0 i)) MAX (map (fun _ => []) J)) as HW.
  assert (NoDup (rev (seq (S i) (length J - S i)) ++ i :: rev (seq 0 i))) as Hnd by (rewrite <- E; apply NoDup_rev, seq_NoDup).
  specialize (HW Hnd). rewrite map_length in HW. specialize (HW Hi).
  assert (nth i (others_loop J (rev (seq (S i) (length J - S i)) ++ i :: rev (seq 0 i)) MAX (map (fun _ => []) J)) [] = [nth i J []]) as Ei.
  { rewrite HW.
    - apply split_axis_whole. rewrite Forall_forall in Hne. apply Hne. now apply nth_In.
    - intros j Hj. rewrite Forall_forall in Hp. apply Hp. apply nth_In. apply in_app_or in Hj as [Hj|[<-|[]]]; [|exact Hi].
      apply in_rev, in_seq in Hj. lia.
    - rewrite <- prodover_skipn in Hm. replace (length J - i)%nat with (S (length J - S i)) in Hm by lia.
      rewrite (prodover_perm _ _ (seq i (S (length J - S i)))); [exact Hm|]. cbn [seq].
      eapply perm_trans; [apply Permutation_app_comm|]. cbn [app]. apply perm_skip. symmetry. apply Permutation_rev. }
  revert Hk Ei. generalize (others_loop J (rev (seq (S i) (length J - S i)) ++ i :: rev (seq 0 i)) MAX (map (fun _ => []) J)).
  intros R Hk. revert i Hi Hm E HW Hnd. generalize (nth_error R). intros _. intros i _ _ _ _ _.
  revert i. generalize J. clear -Hk. intros J. revert J. induction Hk as [|l a R c H _ IH]; intros J i Ei; [destruct i; discriminate Ei|].
  destruct i as [|i]; cbn [nth] in *; [rewrite Ei in H; destruct H as [<-|[]]; reflexivity|].
  destruct J as [|j J]; cbn in *; [|now apply IH].
  specialize (IH [] i). cbn [nth] in IH. destruct i; now apply IH.
Qed.

(** *** one axis *)
Fixpoint onehot (n i : nat) : list bool :=
  match n, i with
  | O, _ => []
  | S n, O => true :: map (fun _ => false) (seq 0 n)
  | S n, S i => false :: onehot n i
  end.
Lemma gone_onehot n i : (i < n)%nat -> gone_axes n [i] = onehot n i.
Proof.
  unfold gone_axes. revert i. induction n as [|n IH]; intros i H; [lia|]. destruct i as [|i]; cbn [seq map onehot].
  - f_equal. rewrite <- seq_shift, map_map. apply map_ext. intros k. reflexivity.
  - cbn [existsb Nat.eqb orb]. f_equal. rewrite <- seq_shift, map_map, <- IH by lia. apply map_ext. intros k. reflexivity.
Qed.
Lemma fibl_none (J : list (list Z)) k : length k = length J -> product (fibl (map (fun _ => false) (seq 0 (length J))) J k) = [k].
Proof.
  revert k. induction J as [|l J IH]; intros [|y k] H; cbn in *; try lia; [reflexivity|].
  rewrite <- seq_shift, map_map. rewrite IH by lia. reflexivity.
Qed.
Lemma fibl_single (J : list (list Z)) i k : (i < length J)%nat -> length k = (length J - 1)%nat ->
  product (fibl (onehot (length J) i) J k) = map (insert_at k i) (nth i J []).
Proof.
  revert i k. induction J as [|l J IH]; intros i k Hi Hk; [cbn in Hi; lia|]. destruct i as [|i].
  - cbn [onehot length fibl nth]. rewrite product_cons, fibl_none by (cbn in Hk; lia). clear. induction l as [|y l IHl]; [reflexivity|]. cbn [flat_map map app] in *. now rewrite IHl.
  - cbn [onehot length fibl nth]. destruct k as [|y k]; [cbn in *; lia|]. rewrite product_cons, (IH i k) by (cbn in *; lia). cbn [flat_map].
    rewrite app_nil_r, map_map. reflexivity.
Qed.
Lemma dropped_onehot {A} (J : list A) i : (i < length J)%nat -> dropped (onehot (length J) i) J = remove_at J i.
Proof.
  revert i. induction J as [|l J IH]; intros i Hi; [cbn in Hi; lia|]. destruct i as [|i]; cbn [onehot length dropped remove_at].
  - clear. assert (forall (f : nat -> bool) s (J : list A), (forall n, f n = false) -> length s = length J -> dropped (map f s) J = J) as HH.
    { clear. intros f. induction s as [|k s IH]; intros [|y J] Hf H; cbn in *; try lia; [reflexivity|]. rewrite Hf. f_equal. apply IH; [exact Hf|lia]. }
    apply HH; [reflexivity|apply seq_length].
  - f_equal. apply IH. cbn in Hi. lia.
Qed.
Lemma remove_at_map {A B} (f : A -> B) l i : remove_at (map f l) i = map f (remove_at l i).
Proof. revert i. induction l as [|x l IH]; intros [|i]; cbn; try reflexivity. now rewrite IH. Qed.
Lemma length_remove_at {A} (l : list A) i : (i < length l)%nat -> length (remove_at l i) = (length l - 1)%nat.
Proof. revert i. induction l as [|x l IH]; intros [|i] H; cbn in *; try lia. rewrite IH; lia. Qed.
Lemma insert_along k i t : (i <= length k)%nat -> insert_at k i t = along_axis k i t.
Proof. revert k. induction i as [|i IH]; intros [|y k] H; cbn in *; try lia; try reflexivity. rewrite IH by lia. reflexivity. Qed.
Lemma insert_at_inj (k k' : list Z) i t t' : (i <= length k)%nat -> (i <= length k')%nat -> insert_at k i t = insert_at k' i t' -> k = k'.
Proof. revert k k'. induction i as [|i IH]; intros [|y k] [|y' k'] H H' E; cbn in *; try lia; try congruence. injection E as -> E. f_equal. apply (IH k k'); auto; lia. Qed.

(** *** np.argmax *)
Section Arg.
Context (better : num -> num -> bool)
        (Hirr : forall u, better u u = false) (Htr : forall u v w, better u v = true -> better v w = true -> better u w = true)
        (Htot : forall u v w, is_nan u = false -> is_nan v = false -> is_nan w = false -> better u v = false -> better v w = false -> better u w = false)
        (Hnn : forall u v, better u v = true -> is_nan u = false /\ is_nan v = false).
(** what is known after k elements with values f *)
Definition best_so_far (f : Z -> num) (k bk : Z) : Prop := first_best better k f bk.
Lemma arg_extreme_spec f l : forall k bk, 0 < k -> (forall t, 0 <= t < zlen l -> nth_error l (Z.to_nat t) = Some (f (k + t))) ->
  best_so_far f k bk -> first_best better (k + zlen l) f (arg_extreme better l k bk (f bk)).
Proof.
  induction l as [|y l IH]; intros k bk Hk Hl Hb; cbn [arg_extreme].
  - replace (k + zlen []) with k by (unfold zlen; cbn; lia). exact Hb.
  - assert (y = f k) as Ey.
    { specialize (Hl 0). unfold zlen in Hl. cbn [length nth_error Z.to_nat] in Hl. rewrite Z.add_0_r in Hl. assert (Some y = Some (f k)) as E by (apply Hl; lia). congruence. }
    assert (forall t, 0 <= t < zlen l -> nth_error l (Z.to_nat t) = Some (f (k + 1 + t))) as Hl'.
    { intros t Ht. specialize (Hl (t + 1)). replace (Z.to_nat (t + 1)) with (S (Z.to_nat t)) in Hl by lia. cbn [nth_error] in Hl.
      rewrite Hl; [f_equal; f_equal; lia|]. unfold zlen in *. cbn [length]. lia. }
    replace (k + zlen (y :: l)) with (k + 1 + zlen l) by (unfold zlen; cbn [length]; lia).
    destruct Hb as (Hr & Hb). destruct (is_nan (f bk)) eqn:En.
    + (* a NaN was found already *)
      apply is_nan_true in En. split; [unfold zlen; lia|]. left. split; [exact En|]. destruct Hb as [[_ Hb]|[Hb _]]; [exact Hb|]. exfalso. now apply (Hb bk Hr).
    + destruct Hb as [[Hb _]|(Hb1 & Hb2 & Hb3)]; [rewrite Hb in En; discriminate|].
      destruct (is_nan y || better y (f bk)) eqn:Eb.
      * rewrite Ey. apply IH; [lia|exact Hl'|]. split; [lia|]. destruct (is_nan y) eqn:Eny.
        { left. split; [rewrite <- Ey; now apply is_nan_true|]. intros u Hu. apply Hb1. lia. }
        right. cbn [orb] in Eb. rewrite Ey in Eb, Eny. split; [|split].
        { intros u Hu. destruct (Z.eq_dec u k) as [->|]; [intros E; rewrite E in Eny; discriminate|]. apply Hb1. lia. }
        { intros u Hu. destruct (Z.eq_dec u k) as [->|]; [apply Hirr|]. apply not_true_iff_false. intros E.
          pose proof (Htr _ _ _ E Eb) as E'. rewrite Hb2 in E' by lia. discriminate. }
        { intros u Hu. apply not_false_iff_true. intros E.
          assert (is_nan (f u) = false) as Hu' by (destruct (is_nan (f u)) eqn:E2; [|reflexivity]; apply is_nan_true in E2; exfalso; apply (Hb1 u); [lia|exact E2]).
          pose proof (Htot _ _ _ Eny Hu' En E (Hb2 u ltac:(lia))) as E'. congruence. }
      * apply orb_false_iff in Eb as [Eny Eb]. rewrite Ey in Eny, Eb. apply IH; [lia|exact Hl'|]. split; [lia|]. right. split; [|split].
        { intros u Hu. destruct (Z.eq_dec u k) as [->|]; [intros E; rewrite E in Eny; discriminate|]. apply Hb1. lia. }
        { intros u Hu. destruct (Z.eq_dec u k) as [->|]; [exact Eb|apply Hb2; lia]. }
        { exact Hb3. }
Qed.
Lemma arg_spec f n : 0 < n ->
  match map f (arange 0 n 1) with [] => True | y :: t => first_best better n f (arg_extreme better t 1 0 y) end.
Proof.
  intros Hn. assert (forall t, 0 <= t < n -> nth_error (map f (arange 0 n 1)) (Z.to_nat t) = Some (f t)) as Hnth.
  { intros t Ht. rewrite nth_error_map. assert (elem (arange 0 n 1) t t) as [_ ->] by (apply elem_arange; lia). reflexivity. }
  pose proof (zlen_arange n ltac:(lia)) as Hlen.
  destruct (map f (arange 0 n 1)) as [|y l] eqn:E; [exact I|].
  assert (zlen (y :: l) = n) as Hzl by (rewrite <- E; unfold zlen in *; now rewrite map_length).
  assert (y = f 0) as -> by (specialize (Hnth 0 ltac:(lia)); cbn in Hnth; congruence).
  replace n with (1 + zlen l) by (unfold zlen in *; cbn [length] in Hzl; lia).
  apply arg_extreme_spec; [lia| |].
  - intros t Ht. specialize (Hnth (1 + t)). replace (Z.to_nat (1 + t)) with (S (Z.to_nat t)) in Hnth by lia. apply Hnth.
    unfold zlen in *. cbn [length] in Hzl. lia.
  - split; [lia|]. destruct (is_nan (f 0)) eqn:En; [left; split; [now apply is_nan_true|intros; lia]|]. right. split; [|split].
    + intros u Hu. replace u with 0 by lia. intros E0. rewrite E0 in En. discriminate.
    + intros u Hu. replace u with 0 by lia. apply Hirr.
    + intros; lia.
Qed.
End Arg.

Lemma greater_irr u : greater u u = false.
Proof. unfold greater. destruct u; cbn; try reflexivity. apply qc_ltb_ge. apply Qcle_refl. Qed.
Lemma ltb_trans u v w : ltb u v = true -> ltb v w = true -> ltb u w = true.
Proof.
  destruct u, v, w; cbn; try discriminate; try reflexivity. rewrite !qc_ltb_lt. apply Qclt_trans.
Qed.
Lemma ltb_cotrans u v w : is_nan u = false -> is_nan v = false -> is_nan w = false -> ltb u v = false -> ltb v w = false -> ltb u w = false.
Proof.
  destruct u, v, w; cbn; try discriminate; try reflexivity. intros _ _ _. rewrite !qc_ltb_ge. intros. eapply Qcle_trans; eassumption.
Qed.
Lemma ltb_nn u v : ltb u v = true -> is_nan u = false /\ is_nan v = false.
Proof. destruct u, v; cbn; try discriminate; auto. Qed.
Lemma argmax_first f n : 0 < n -> first_best greater n f (np_argmax (map f (arange 0 n 1))).
Proof.
  intros Hn. assert (map f (arange 0 n 1) <> []) as Hne.
  { intros E. apply (f_equal zlen) in E. unfold zlen in E at 1. rewrite map_length in E. pose proof (zlen_arange n ltac:(lia)). unfold zlen in *. cbn in E. lia. }
  pose proof (arg_spec greater greater_irr) as H. specialize (H (fun u v w A B => ltb_trans w v u B A)).
  specialize (H (fun u v w A B C X Y => ltb_cotrans w v u C B A Y X) (fun u v A => let '(conj P Q) := ltb_nn v u A in conj Q P) f n Hn).
  unfold np_argmax. destruct (map f (arange 0 n 1)); [congruence|exact H].
Qed.
Lemma argmin_first f n : 0 < n -> first_best ltb n f (np_argmin (map f (arange 0 n 1))).
Proof.
  intros Hn. assert (map f (arange 0 n 1) <> []) as Hne.
  { intros E. apply (f_equal zlen) in E. unfold zlen in E at 1. rewrite map_length in E. pose proof (zlen_arange n ltac:(lia)). unfold zlen in *. cbn in E. lia. }
  pose proof (arg_spec ltb greater_irr ltb_trans ltb_cotrans ltb_nn f n Hn) as H.
  unfold np_argmin. destruct (map f (arange 0 n 1)); [congruence|exact H].
Qed.

Section View.
Context (env : axenv) (Henv : env_ok env) (MAX : Z) (HMAX : 1 <= MAX) (junk : list Z -> num) (junkz : Z).
Context (x : var axis num) (D : list Z -> num) (Hx : responds env x D) (Hgood : Forall good_axis (var_axes x))
        (index : nat) (a0 : axis) (Ha0 : nth_error (var_axes x) index = Some a0) (Hlen : 0 < axis_len a0)
        (Hfit : prod (map axis_len (skipn index (var_axes x))) <= MAX).
Notation n := (length (var_axes x)).
Notation g := (gone_axes n [index]).
Notation N := (axis_len a0).

Lemma index_lt : (index < n)%nat.
Proof. apply nth_error_Some. congruence. Qed.

Lemma fillin_sizes : forall fl (full : list (list Z)) L, length L = length (dropped fl full) -> length fl = length full ->
  Forall2 (fun l l' => zlen l <= zlen l') L (dropped fl full) -> Forall2 (fun l l' => zlen l <= zlen l') (fillin fl full L) full.
Proof.
  induction fl as [|[] fl IH]; intros [|f full] L H1 H2 H3; cbn in *; try lia; try constructor; auto; try lia.
  - destruct L as [|l L]; [cbn in H1; lia|]. inversion H3; subst. constructor; [assumption|]. apply IH; auto.
Qed.
Lemma prod_le s s' : Forall2 (fun a b => 0 <= a <= b) s s' -> 0 <= prod s <= prod s'.
Proof. induction 1 as [|a b s s' H _ IH]; cbn; [lia|]. fold (prod s) (prod s'). nia. Qed.

Lemma arg_view_answer (arg : list num -> Z) L : Forall2 selection (kept_axes (var_axes x) [index]) L ->
  exists r, accumulate1 env junk MAX x (view_of_inds (kept_axes (var_axes x) [index]) L) junkz (fun a => Some (reduce_axis arg a index)) (fun _ b => b) = Some r /\
    array_is r (map zlen L) (fun p => arg (map (fun t => D (along_axis (gather L p) index t)) (arange 0 N 1))).
Proof.
  intros HL. pose proof Hx as [Hsep _]. pose proof index_lt as Hi.
  set (line := fun k => map (insert_at k index) (arange 0 N 1)).
  set (Rb := fun (l : list (list Z)) (b : Z) => exists k, length k = (n - 1)%nat /\ l = line k /\ b = arg (map D l)).
  set (Ro := fun (l : list (list Z)) (b : Z) => l = [] \/ exists k, length k = (n - 1)%nat /\ (forall q, In q (line k) -> In q l) /\ b = arg (map D (line k))).
  assert (Hpos : forall i a, In i [index] -> nth_error (var_axes x) i = Some a -> 0 < axis_len a).
  { intros i a [<-|[]] Ha. rewrite Ha0 in Ha. injection Ha as <-. exact Hlen. }
  destruct (accumulate_view_gen env Henv junk MAX HMAX (var_axes x) Hsep Hgood [index] Hpos Ro Rb junkz (fun _ b => b) [x]
     (fun data => match data with [a] => Some (reduce_axis arg a index) | _ => None end) L) as (r & Hr & Hs & Hv).
  - intros l l' w Hp [->|(k & Hk & H1 & H2)]; [left; now apply Permutation_nil in Hp|]. right. exists k. repeat split; auto.
    intros q Hq. apply (Permutation_in _ Hp). auto.
  - now left.
  - intros l1 w l2 b _ _ (k & Hk & H1 & H2). right. exists k. split; [exact Hk|]. split; [|congruence]. intros q Hq. apply in_or_app. right. congruence.
  - intros c Hc1 Hc. pose proof (Forall2_len _ _ _ Hc) as Hcl.
    destruct (responds_part env Henv junk x D c Hx Hc) as (a & Ha & Has & Hav).
    assert (nth index c [] = arange 0 N 1) as Ec.
    { change (gone (var_axes x) [index]) with g in Hc1.
      set (full := map (fun a => arange 0 (axis_len a) 1) (var_axes x)) in *.
      assert (length full = n) as Hfl by (unfold full; apply map_length).
      assert (length L = length (dropped g (var_axes x))) as HLl by (rewrite kept_dropped in HL; symmetry; eapply Forall2_len, HL).
      assert (length L = length (dropped g full)) as HLf by (rewrite HLl; apply dropped_len; rewrite length_gone; [reflexivity|exact Hfl]).
      assert (nth index (fillin g full L) [] = arange 0 N 1) as Ef.
      { apply nth_error_nth. rewrite fillin_gone; [unfold full; rewrite nth_error_map, Ha0; reflexivity|exact HLf|].
        rewrite nth_error_gone. destruct (Nat.ltb_spec index n); [|lia]. cbn. now rewrite Nat.eqb_refl. }
      assert (Forall2 (fun l l' => zlen l <= zlen l') (fillin g full L) full) as Hsz.
      { apply fillin_sizes; [exact HLf|rewrite length_gone; lia|]. unfold full. rewrite dropped_map. apply Forall2_map_r.
        rewrite kept_dropped in HL. clear -HL. induction HL as [|a l axes L (H1 & H2 & H3) _ IH]; constructor; auto.
        rewrite zlen_arange by apply axis_len_nonneg. pose proof (increasing_bound l (axis_len a) H3 H2). pose proof (axis_len_nonneg a). lia. }
      assert (Forall (fun l => l <> []) (fillin g full L)) as Hne.
      { apply Forall_forall. intros l Hl. apply In_nth_error in Hl as [j Hj].
        destruct (nth_error g j) as [[]|] eqn:Eg.
        - rewrite fillin_gone in Hj by assumption. rewrite nth_error_gone in Eg. destruct (Nat.ltb j n) eqn:E1; [|discriminate]. cbn in Eg.
          destruct (Nat.eqb_spec j index) as [->|]; [|discriminate Eg]. unfold full in Hj. rewrite nth_error_map, Ha0 in Hj. injection Hj as <-.
          intros E. pose proof (zlen_arange N ltac:(lia)) as K. rewrite E in K. cbn in K. lia.
        - pose proof (nth_error_dropped g (fillin g full L) j Eg) as K. rewrite dropped_fillin in K by (rewrite ?length_gone; auto). rewrite Hj in K.
          rewrite kept_dropped in HL. apply nth_error_In in K. apply (Forall2_In_r _ _ _ _ HL) in K as (? & _ & K & _). exact K.
        - exfalso. apply nth_error_None in Eg. rewrite length_gone in Eg. pose proof (Forall2_len _ _ _ Hsz) as K.
          assert (j < length (fillin g full L))%nat by (apply nth_error_Some; congruence). lia. }
      rewrite <- Ef. apply (loop_mem_whole MAX (fillin g full L)); auto.
      - pose proof (Forall2_len _ _ _ Hsz) as K. lia.
      - transitivity (prod (map axis_len (skipn index (var_axes x)))); [|exact Hfit].
        assert (Forall2 (fun l l' => zlen l <= zlen l') (skipn index (fillin g full L)) (skipn index full)) as Hsz'.
        { now apply Forall2_skip. }
        apply prod_le. unfold full in Hsz'. rewrite skipn_map in Hsz'. now apply sizes_le. }
    change (gone (var_axes x) [index]) with g.
    assert (g = onehot (length c) index) as Eg by (rewrite gone_onehot by exact Hi; now rewrite Hcl).
    assert (shape (reduce_axis arg a index) = map zlen (dropped g c)) as Esh.
    { cbn [shape reduce_axis]. rewrite Has, Eg, dropped_onehot by lia. apply remove_at_map. }
    destruct (broadcast_same _ _ Esh) as (b' & Hb' & _ & Hbv). exists [a], (reduce_axis arg a index), b'. cbn [map sequence]. rewrite Ha.
    split; [reflexivity|]. split; [reflexivity|]. split; [exact Hb'|]. intros p Hp. rewrite (Hbv p Hp).
    assert (length p = (n - 1)%nat) as Hpl.
    { apply Forall2_len in Hp. rewrite map_length, Eg, dropped_onehot, length_remove_at in Hp by lia. lia. }
    exists (gather (dropped g c) p).
    assert (product (fibl g c (gather (dropped g c) p)) = line (gather (dropped g c) p)) as El.
    { assert (length (gather (dropped g c) p) = (length c - 1)%nat) as Hgl.
      { pose proof (gather_position (dropped g c) (map (fun l => 1 + fold_right Z.max 0 l) (dropped g c)) p) as _.
        assert (forall (A : list (list Z)) q, length q = length A -> length (gather A q) = length A) as HH
          by (clear; induction A as [|l A IH]; intros [|y q] H; cbn in *; try lia; rewrite IH; lia).
        rewrite HH; rewrite Eg, dropped_onehot, length_remove_at by lia; lia. }
      rewrite Eg at 1. rewrite fibl_single by lia. unfold line. now rewrite Ec. }
    split.
    { assert (forall (A : list (list Z)) q, length q = length A -> length (gather A q) = length A) as HH
        by (clear; induction A as [|l A IH]; intros [|y q] H; cbn in *; try lia; rewrite IH; lia).
      rewrite HH; rewrite Eg, dropped_onehot, length_remove_at by lia; lia. }
    split; [exact El|].
    rewrite <- (map_gather_fibl g c p) by (rewrite ?length_gone; auto). rewrite map_map.
    cbn [val reduce_axis]. f_equal. rewrite Has.
    destruct (nth_error c index) as [ci|] eqn:Eci; [|apply nth_error_None in Eci; lia].
    rewrite (nth_error_nth _ _ _ Eci) in Ec.
    assert (nth index (map zlen c) 0 = N) as EN.
    { erewrite nth_error_nth by (rewrite nth_error_map, Eci; reflexivity). rewrite Ec. apply zlen_arange. lia. }
    rewrite EN. rewrite Eg. replace (length c) with (length (map (fun l : list Z => arange 0 (zlen l) 1) c)) by apply map_length.
    rewrite fibl_single by (rewrite map_length; lia). rewrite map_map.
    erewrite nth_error_nth by (rewrite nth_error_map, Eci; reflexivity). rewrite Ec. rewrite zlen_arange by lia.
    apply map_ext_in. intros t Ht. rewrite Hav; [reflexivity|].
    eapply (fibl_positions g (map zlen c) p); [rewrite length_gone, map_length; lia|rewrite dropped_map; exact Hp|]. rewrite map_map, Eg.
    replace (length c) with (length (map (fun l : list Z => arange 0 (zlen l) 1) c)) at 1 by apply map_length.
    rewrite fibl_single by (rewrite map_length; lia). apply in_map.
    erewrite nth_error_nth; [|rewrite nth_error_map, Eci; reflexivity]. rewrite Ec, zlen_arange by lia. exact Ht.
  - exact HL.
  - exists r. split; [exact Hr|]. split; [exact Hs|]. intros p Hp. specialize (Hv p Hp). change (gone (var_axes x) [index]) with g in Hv.
    pose proof (selection_position x [index] L p HL Hp) as Hk. change (var_shape x) with (map axis_len (var_axes x)) in Hk.
    rewrite fibre_fibl in Hv; [|rewrite length_gone, map_length; reflexivity|exact Hk].
    assert (length (gather L p) = (n - 1)%nat) as Hgl.
    { apply Forall2_len in Hk. rewrite gone_onehot in Hk by exact Hi.
      replace n with (length (map axis_len (var_axes x))) in Hk at 1 by apply map_length.
      rewrite dropped_onehot, length_remove_at in Hk by (rewrite map_length; exact Hi). rewrite map_length in Hk. lia. }
    rewrite map_map, gone_onehot in Hv by exact Hi.
    replace n with (length (map (fun a => arange 0 (axis_len a) 1) (var_axes x))) in Hv at 1 by apply map_length.
    rewrite fibl_single in Hv by (rewrite map_length; lia).
    erewrite nth_error_nth in Hv by (rewrite nth_error_map, Ha0; reflexivity).
    assert (In (insert_at (gather L p) index 0) (line (gather L p))) as Hin0.
    { unfold line. apply in_map. apply (elem_In _ 0). apply elem_arange; lia. }
    destruct Hv as [Hv|(k & Hk' & Hin & ->)].
    { exfalso. unfold line in Hin0. rewrite Hv in Hin0. destruct Hin0. }
    assert (k = gather L p) as ->.
    { assert (In (insert_at k index 0) (line k)) as Hin1 by (unfold line; apply in_map; apply (elem_In _ 0); apply elem_arange; lia).
      apply Hin in Hin1. apply in_map_iff in Hin1 as (t & Et & _). symmetry. eapply (insert_at_inj _ _ index t 0); [lia|lia|exact Et]. }
    f_equal. unfold line. rewrite map_map. apply map_ext. intros t. f_equal. apply insert_along. lia.
Qed.
End View.
