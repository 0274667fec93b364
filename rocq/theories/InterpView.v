(** Interpolation: the variable. *)
From Coq Require Import ZArith List Bool Lia Permutation QArith_base Qcanon Sorting.Sorted.
From Verif Require Import SortSpec IndexModel IndexSpec IndexProofs ArrModel ArrProofs ViewModel ViewSpec ViewProofs ChunkProofs AxisModel AxisSpec AxisProofs VarOpsModel VarOpsSpec VarOpsProofs ReduceModel ReduceSpec NumModel
     UfuncView RespondProofs StencilModel StencilSpec StencilProofs DerivProofs WindowModel WindowProofs ArgProofs ConcatProofs BlockProofs SmoothModel SmoothSpec InterpModel InterpSpec InterpProofs.
Import ListNotations.
Open Scope Z_scope.

(** *** the axis moved to the end *)
Definition loc (n d i : nat) : nat := if Nat.ltb i d then i else if Nat.eqb i d then (n - 1)%nat else (i - 1)%nat.
Lemma loc_inj n d i j : (d < n)%nat -> (i < n)%nat -> (j < n)%nat -> loc n d i = loc n d j -> i = j.
Proof. unfold loc. intros. destruct (Nat.ltb_spec i d), (Nat.ltb_spec j d), (Nat.eqb_spec i d), (Nat.eqb_spec j d); lia. Qed.
Lemma loc_axis {A} (l : list A) d a i : nth_error l d = Some a -> (i < length l)%nat -> nth_error (remove_at l d ++ [a]) (loc (length l) d i) = nth_error l i.
Proof.
  intros Ha Hi. assert (d < length l)%nat as Hd by (apply nth_error_Some; congruence). pose proof (length_remove_at l d Hd) as Hl.
  unfold loc. destruct (Nat.ltb_spec i d) as [H1|H1]; [|destruct (Nat.eqb_spec i d) as [->|H2]].
  - rewrite nth_error_app1 by lia. rewrite nth_error_remove. destruct (Nat.ltb_spec i d); [reflexivity|lia].
  - rewrite nth_error_app2 by lia. rewrite Hl, Nat.sub_diag. now rewrite Ha.
  - rewrite nth_error_app1 by lia. rewrite nth_error_remove. destruct (Nat.ltb_spec (i - 1) d); [lia|]. f_equal. lia.
Qed.
Lemma loc_position n d q k i : (d < n)%nat -> length q = (n - 1)%nat -> (i < n)%nat -> nth (loc n d i) (q ++ [k]) 0 = nth i (insert_at q d k) 0.
Proof.
  intros Hd Hq Hi. assert (nth_error (q ++ [k]) (loc n d i) = nth_error (insert_at q d k) i) as E.
  { rewrite nth_error_insert_at by lia. unfold loc. destruct (Nat.ltb_spec i d) as [H1|H1]; [|destruct (Nat.eqb_spec i d) as [->|H2]].
    - apply nth_error_app1. lia.
    - rewrite nth_error_app2 by lia. rewrite Hq, Nat.sub_diag. reflexivity.
    - apply nth_error_app1. lia. }
  destruct (nth_error (insert_at q d k) i) as [z|] eqn:Ei.
  - now rewrite (nth_error_nth _ _ 0 Ei), (nth_error_nth _ _ 0 E).
  - apply nth_error_None in Ei. rewrite length_insert in Ei. lia.
Qed.
Lemma map_nth_all {A} (q : list A) z : map (fun i => nth i q z) (seq 0 (length q)) = q.
Proof. induction q as [|x q IH]; [reflexivity|]. cbn [length seq map nth]. f_equal. rewrite <- seq_shift, map_map. exact IH. Qed.
Lemma loc_whole n d q k : (d < n)%nat -> length q = (n - 1)%nat -> map (fun i => nth i (q ++ [k]) 0) (map (loc n d) (seq 0 n)) = insert_at q d k.
Proof.
  intros Hd Hq. rewrite map_map. transitivity (map (fun i => nth i (insert_at q d k) 0) (seq 0 n)).
  - apply map_ext_in. intros i Hi. apply in_seq in Hi. apply loc_position; lia.
  - assert (length (insert_at q d k) = n) as H by (rewrite length_insert; lia). rewrite <- H at 1. apply map_nth_all.
Qed.
Lemma insert_end {A} (q : list A) x : insert_at q (length q) x = q ++ [x].
Proof. induction q as [|y q IH]; [reflexivity|]. cbn in IH |- *. now rewrite IH. Qed.

(** *** arrays *)
Lemma repeat_ones_shows {V} s (r : arr V) E : shows s r E -> array_is (repeat_ones r s) s E.
Proof.
  intros [Hf Hv]. split; [|exact Hv]. cbn. clear Hv. induction Hf as [|m n t s Hmn Hf IH]; [reflexivity|]. cbn. rewrite IH. f_equal. destruct (Z.eqb_spec m 1); lia.
Qed.
Lemma in_positions s p : In p (product (map (fun n => arange 0 n 1) s)) <-> position s p.
Proof.
  rewrite in_product. revert p. induction s as [|n s IH]; intros p; cbn [map].
  - split; intros H; inversion H; constructor.
  - split; intros H; inversion H as [|? x ? p' Hx Hp']; subst; constructor.
    + apply IntgrProofs.In_arange1 in Hx. exact Hx.
    + now apply IH.
    + apply IntgrProofs.In_arange1. exact Hx.
    + now apply IH.
Qed.
Lemma entries_rows {V} s N (r : arr V) E : array_is r (s ++ [N]) E ->
  entries r = flat_map (fun p => map (fun k => E (p ++ [k])) (arange 0 N 1)) (product (map (fun n => arange 0 n 1) s)).
Proof.
  intros [Hs Hv]. unfold entries. rewrite Hs, map_app. cbn [map]. rewrite product_snoc, flat_map_concat_map, concat_map, map_map, flat_map_concat_map. f_equal.
  apply map_ext_in. intros p Hp. rewrite map_map. apply map_ext_in. intros k Hk. apply Hv. apply in_positions in Hp.
  apply Forall2_app; [exact Hp|]. constructor; [|constructor]. apply IntgrProofs.In_arange1 in Hk. lia.
Qed.

Lemma outshape_last s N : outshape (s ++ [N]) [length s] = repeat 1 (length s) ++ [N].
Proof.
  apply nth_error_ext'. intros i. unfold outshape. rewrite nth_error_map, nth_error_combine, nth_error_seq, app_length. cbn [length].
  destruct (Nat.ltb_spec i (length s + 1)) as [H|H].
  - destruct (Nat.eq_dec i (length s)) as [->|Hne].
    + rewrite nth_error_app2, Nat.sub_diag by lia. cbn. rewrite Nat.eqb_refl. cbn.
      rewrite nth_error_app2 by (rewrite repeat_length; lia). now rewrite repeat_length, Nat.sub_diag.
    + rewrite nth_error_app1 by lia. destruct (nth_error s i) as [m|] eqn:E; [|apply nth_error_None in E; lia]. cbn.
      destruct (Nat.eqb_spec i (length s)); [lia|]. cbn. rewrite nth_error_app1 by (rewrite repeat_length; lia). symmetry. apply nth_error_repeat. lia.
  - cbn. symmetry. apply nth_error_None. rewrite app_length, repeat_length. cbn. lia.
Qed.
Lemma product_ones n N : product (map (fun n => arange 0 n 1) (repeat 1 n ++ [N])) = map (fun k => repeat 0 n ++ [k]) (arange 0 N 1).
Proof.
  induction n as [|n IH].
  - cbn. induction (arange 0 N 1) as [|x l IHl]; [reflexivity|]. cbn. now rewrite IHl.
  - cbn [repeat app map product]. rewrite IH. change (arange 0 1 1) with [0]. cbn [flat_map]. rewrite app_nil_r, map_map. reflexivity.
Qed.
Lemma squash_last s N p k : position s p -> 0 <= k < N -> squash (repeat 1 (length s) ++ [N]) (p ++ [k]) = repeat 0 (length s) ++ [k].
Proof.
  intros Hp Hk. induction Hp as [|n x s p Hx Hp IH].
  - cbn. f_equal. destruct (Z.eqb_spec N 1); lia.
  - cbn [length repeat app]. unfold squash in *. cbn [combine map]. rewrite IH. reflexivity.
Qed.
Lemma entries_row {V} s N (r : arr V) E p : shows (s ++ [N]) r E -> shape r = outshape (s ++ [N]) [length s] -> position s p ->
  entries r = map (fun k => E (p ++ [k])) (arange 0 N 1).
Proof.
  intros [_ Hv] Hs Hp. rewrite Hs, outshape_last in Hv. unfold entries. rewrite Hs, outshape_last, product_ones, map_map. apply map_ext_in. intros k Hk. apply IntgrProofs.In_arange1 in Hk.
  rewrite <- (squash_last s N p k Hp Hk). apply Hv. apply Forall2_app; [exact Hp|]. constructor; [lia|constructor].
Qed.
Lemma gather_snoc R l p k : length p = length R -> gather (R ++ [l]) (p ++ [k]) = gather R p ++ [znth l k].
Proof. revert p. induction R as [|r R IH]; intros [|x p] H; try discriminate; [reflexivity|]. cbn in H |- *. unfold gather in *. cbn. rewrite IH by lia. reflexivity. Qed.
Lemma prod_snoc s N : prod (s ++ [N]) = prod s * N.
Proof. induction s as [|n s IH]; cbn [app]; [unfold prod; cbn [fold_right]; lia|]. change (prod (n :: s ++ [N])) with (n * prod (s ++ [N])). change (prod (n :: s)) with (n * prod s). rewrite IH. lia. Qed.
Lemma set_last {A} (l : list A) x y : set_at (l ++ [x]) (length l) y = l ++ [y].
Proof. induction l as [|z l IH]; [reflexivity|]. cbn. now rewrite IH. Qed.
Lemma nth_last {A} (l : list A) x z : nth (length l) (l ++ [x]) z = x.
Proof. rewrite app_nth2, Nat.sub_diag by lia. reflexivity. Qed.

Section Var.
Context (env : axenv) (Henv : env_ok env) (junk : list Z -> num).
Notation var := (ViewModel.var axis num).
Notation ops := (axis_ops env).

Lemma moved_forall {A} (l : list A) d a : nth_error l d = Some a ->
  Forall2 (fun i b => nth_error l i = Some b) (seq 0 d ++ seq (S d) (length l - S d) ++ [d]) (remove_at l d ++ [a]).
Proof.
  intros Ha. assert (d < length l)%nat as Hd by (apply nth_error_Some; congruence). rewrite app_assoc. apply Forall2_app; [|constructor; [exact Ha|constructor]].
  apply Forall2_intro_nth; [rewrite app_length, !seq_length, length_remove_at by exact Hd; lia|]. intros i j b Hj Hb. rewrite nth_error_remove in Hb.
  destruct (Nat.ltb_spec i d) as [H|H].
  - rewrite nth_error_app1 in Hj by (rewrite seq_length; lia). rewrite nth_error_seq in Hj. destruct (Nat.ltb_spec i d); [|lia]. injection Hj as <-. exact Hb.
  - rewrite nth_error_app2 in Hj by (rewrite seq_length; lia). rewrite seq_length, nth_error_seq in Hj. destruct (Nat.ltb_spec (i - d) (length l - S d)); [|discriminate].
    injection Hj as <-. rewrite <- Hb. f_equal. lia.
Qed.
Lemma separate_moved axes d a : separate axes -> nth_error axes d = Some a -> separate (remove_at axes d ++ [a]).
Proof.
  intros Hs Ha. assert (d < length axes)%nat as Hd by (apply nth_error_Some; congruence).
  assert (forall i b, nth_error (remove_at axes d ++ [a]) i = Some b -> exists i', (i' < length axes)%nat /\ nth_error axes i' = Some b /\ i = loc (length axes) d i') as K.
  { intros i b Hb. pose proof (length_remove_at axes d Hd) as Hl. assert (i < length (remove_at axes d ++ [a]))%nat as Hi by (apply nth_error_Some; congruence). rewrite app_length in Hi. cbn in Hi.
    assert (exists i', (i' < length axes)%nat /\ i = loc (length axes) d i') as (i' & Hi' & ->).
    { unfold loc. destruct (Nat.ltb_spec i d); [exists i; destruct (Nat.ltb_spec i d); lia|]. destruct (Nat.eq_dec i (length axes - 1)).
      - exists d. destruct (Nat.ltb_spec d d); [lia|]. rewrite Nat.eqb_refl. lia.
      - exists (S i). destruct (Nat.ltb_spec (S i) d); [lia|]. destruct (Nat.eqb_spec (S i) d); lia. }
    exists i'. rewrite loc_axis in Hb by assumption. auto. }
  intros i j b c Hb Hc Hij. destruct (K i b Hb) as (i' & Hi' & Hb' & ->). destruct (K j c Hc) as (j' & Hj' & Hc' & ->). apply (Hs i' j' b c Hb' Hc'). intros <-. now apply Hij.
Qed.

Lemma moved_on_axes axes d a (dx : var) al : nth_error axes d = Some a -> on_axes axes al dx -> on_axes (remove_at axes d ++ [a]) (map (loc (length axes) d) al) dx.
Proof.
  intros Ha [Hn Hf]. assert (d < length axes)%nat as Hd by (apply nth_error_Some; congruence).
  assert (forall i, In i al -> (i < length axes)%nat) as Hal. { intros i Hi. destruct (Forall2_In_r _ _ _ _ Hf Hi) as (b & _ & Hb). apply nth_error_Some. congruence. }
  split.
  - clear Hf. induction Hn as [|i al Hi Hn IH]; cbn; constructor.
    + intros H. apply in_map_iff in H as (j & E & Hj). apply loc_inj in E; [subst j; contradiction|exact Hd|apply Hal; now right|apply Hal; now left].
    + apply IH. intros j Hj. apply Hal. now right.
  - clear Hn. induction Hf as [|b i bs al Hb Hf IH]; cbn; constructor.
    + rewrite loc_axis; [exact Hb|exact Ha|apply Hal; now left].
    + apply IH. intros j Hj. apply Hal. now right.
Qed.

Lemma moved_last (x : var) D d a : responds env x D -> nth_error (var_axes x) d = Some a ->
  exists inv D', transpose_var env junk x (seq 0 d ++ seq (S d) (length (var_axes x) - S d) ++ [d]) = Some inv /\ var_axes inv = remove_at (var_axes x) d ++ [a] /\
    responds env inv D' /\ forall q k, length q = (length (var_axes x) - 1)%nat -> D' (q ++ [k]) = D (insert_at q d k).
Proof.
  intros Hx Ha. pose proof Hx as [Hsep _]. assert (d < length (var_axes x))%nat as Hd by (apply nth_error_Some; congruence).
  set (n := length (var_axes x)) in *. set (l := seq 0 d ++ seq (S d) (n - S d) ++ [d]).
  assert (forall i, In i l <-> (i < n)%nat) as Hl.
  { intros i. unfold l. rewrite !in_app_iff, !in_seq. cbn. lia. }
  unfold transpose_var. fold n. assert (l <> []) as Hne by (intros E; apply (f_equal (@length nat)) in E; unfold l in E; rewrite !app_length in E; cbn in E; lia).
  assert (forallb (fun a => Nat.ltb a n) l = true) as Hall by (apply forallb_forall; intros i Hi; apply Nat.ltb_lt; now apply Hl).
  assert (filter (fun a => negb (existsb (Nat.eqb a) l)) (seq 0 n) = []) as Hfil.
  { destruct (filter _ _) as [|z t] eqn:E; [reflexivity|]. assert (In z (filter (fun a => negb (existsb (Nat.eqb a) l)) (seq 0 n))) as Hz by (rewrite E; now left).
    apply filter_In in Hz as [H1 H2]. apply in_seq in H1. rewrite (proj2 (existsb_In z l)) in H2 by (apply Hl; lia). discriminate. }
  rewrite Hall. destruct l as [|l0 l'] eqn:El; [congruence|]. cbv zeta. rewrite Hfil, app_nil_r.
  pose proof (moved_forall (var_axes x) d a Ha) as HF. fold n in HF. unfold l in El. rewrite El in HF.
  destruct (list_eq_dec Nat.eq_dec (l0 :: l') (seq 0 n)) as [E|E].
  - assert (d = n - 1)%nat as Hdn.
    { assert (nth_error (seq 0 n) (n - 1) = Some d) as H. { rewrite <- E, <- El, app_assoc, nth_error_app2 by (rewrite app_length, !seq_length; lia). rewrite app_length, !seq_length. replace (n - 1 - (d + (n - S d)))%nat with 0%nat by lia. reflexivity. }
      rewrite nth_error_seq in H. destruct (Nat.ltb_spec (n - 1) n); [|lia]. injection H as H. lia. }
    exists x, D. split; [reflexivity|]. split.
    + rewrite E in HF. apply nth_error_ext'. intros i. destruct (nth_error (var_axes x) i) as [b|] eqn:Eb.
      * assert (i < n)%nat as Hi by (apply nth_error_Some; congruence). assert (length (remove_at (var_axes x) d ++ [a]) = n) as HL by (rewrite <- (Forall2_len _ _ _ HF); apply seq_length).
        destruct (nth_error (remove_at (var_axes x) d ++ [a]) i) as [c|] eqn:Ec; [|apply nth_error_None in Ec; lia].
        assert (nth_error (seq 0 n) i = Some i) as Hs by (rewrite nth_error_seq; destruct (Nat.ltb_spec i n); [reflexivity|lia]).
        pose proof (Forall2_nth_error _ _ _ _ _ _ HF Hs Ec) as K. cbv beta in K. congruence.
      * symmetry. apply nth_error_None. apply nth_error_None in Eb. rewrite <- (Forall2_len _ _ _ HF), seq_length. exact Eb.
    + split; [exact Hx|]. intros q k Hq. rewrite <- insert_end. f_equal. f_equal. lia.
  - assert (sequence (map (fun i => nth_error (var_axes x) i) (l0 :: l')) = Some (remove_at (var_axes x) d ++ [a])) as -> by (apply sequence_Forall2; exact HF).
    set (B := remove_at (var_axes x) d ++ [a]) in *.
    exists (wrapped env junk x B), (fun q => D (map (fun i => nth i q 0) (map (loc n d) (seq 0 n)))). split; [reflexivity|]. split; [reflexivity|]. split.
    + split; [apply (separate_moved _ _ _ Hsep Ha)|]. cbn. intros L HL.
      assert (on_axes (var_axes x) (seq 0 n) x) as Hon.
      { split; [apply seq_NoDup|]. apply Forall2_intro_nth; [symmetry; apply seq_length|]. intros i b j Hb Hj. rewrite nth_error_seq in Hj. destruct (Nat.ltb_spec i n); [|discriminate]. injection Hj as <-. exact Hb. }
      pose proof (moved_on_axes _ _ _ _ _ Ha Hon) as Hon'. fold n B in Hon'.
      destruct (read_other_shape env Henv junk B L x D _ Hx (separate_moved _ _ _ Hsep Ha) HL Hon') as (r & Hr & Hs & Hsh & _).
      exists r. split; [exact Hr|]. apply array_shows; [exact Hsh|]. rewrite Hs. apply outshape_full. rewrite map_length. intros i Hi.
      assert (length L = n) as HLn. { rewrite <- (Forall2_len _ _ _ HL). unfold B. rewrite app_length, length_remove_at by exact Hd. cbn. fold n. lia. }
      rewrite HLn in Hi. apply in_map_iff. unfold loc. destruct (Nat.ltb_spec i d); [exists i; split; [destruct (Nat.ltb_spec i d); lia|apply in_seq; lia]|]. destruct (Nat.eq_dec i (n - 1)).
      * exists d. split; [destruct (Nat.ltb_spec d d); [lia|]; rewrite Nat.eqb_refl; lia|apply in_seq; lia].
      * exists (S i). split; [destruct (Nat.ltb_spec (S i) d); [lia|]; destruct (Nat.eqb_spec (S i) d); lia|apply in_seq; lia].
    + intros q k Hq. rewrite loc_whole by assumption. reflexivity.
Qed.

(** one side: the rows of coordinates handed to the C code *)
Lemma side (dx : var) X0 al axes c R l : responds env dx X0 -> separate (axes ++ [c]) -> Forall2 selection axes R -> selection c l -> on_axes (axes ++ [c]) al dx -> In (length axes) al ->
  exists r, get ops junk (view_of_inds (axes ++ [c]) (R ++ [l])) dx true true = Some r /\
    let F p := X0 (map (fun i => nth i (gather (R ++ [l]) p) 0) al) in
    let loop := negb (Nat.eqb (length (var_axes dx)) 1) in
    let r' := if loop then repeat_ones r (map zlen R ++ [zlen l]) else r in
    nth (length axes) (shape r') 0 = zlen l /\
    let row p := map (fun k => F (p ++ [k])) (arange 0 (zlen l) 1) in
    (loop = true -> entries r' = flat_map row (product (map (fun n => arange 0 n 1) (map zlen R)))) /\
    (loop = false -> forall p, position (map zlen R) p -> entries r' = row p).
Proof.
  intros Hx Hs HR Hl Hon Hin. assert (Forall2 selection (axes ++ [c]) (R ++ [l])) as HL by (apply Forall2_app; [exact HR|now constructor]).
  destruct (read_other_shape env Henv junk _ _ dx X0 al Hx Hs HL Hon) as (r & Hr & Hsh & Hshow & Hal). rewrite map_app in Hsh, Hshow, Hal. cbn [map] in Hsh, Hshow, Hal.
  pose proof (Forall2_len _ _ _ HR) as HlenR. assert (length (map zlen R) = length axes) as HsR by (rewrite map_length; lia).
  exists r. split; [exact Hr|]. cbv zeta. destruct (Nat.eqb_spec (length (var_axes dx)) 1) as [E|E]; cbn [negb].
  - assert (al = [length axes]) as ->.
    { destruct Hon as [_ Hf]. apply Forall2_len in Hf. destruct al as [|i [|j al]]; cbn in Hf; try lia. destruct Hin as [->|[]]. reflexivity. }
    split; [|split; [discriminate|]].
    + rewrite Hsh, <- HsR, outshape_last. rewrite <- (repeat_length 1 (length (map zlen R))) at 1. apply nth_last.
    + intros _ p Hp. rewrite <- HsR in Hsh. exact (entries_row (map zlen R) (zlen l) r _ p Hshow Hsh Hp).
  - pose proof (repeat_ones_shows _ _ _ Hshow) as Hrep. split; [|split; [|discriminate]].
    + destruct Hrep as [Hrs _]. rewrite Hrs, <- HsR. apply nth_last.
    + intros _. exact (entries_rows (map zlen R) (zlen l) _ _ Hrep).
Qed.

Lemma arange_take n j : (j < Z.to_nat n)%nat -> nth_error (arange 0 n 1) j = Some (Z.of_nat j).
Proof. intros H. assert (elem (arange 0 n 1) (Z.of_nat j) (Z.of_nat j)) as [_ K] by (apply elem_arange1; lia). now rewrite Nat2Z.id in K. Qed.
Lemma length_arange n : length (arange 0 n 1) = Z.to_nat n.
Proof. destruct (Z.le_gt_cases 0 n) as [H|H]; [pose proof (LoopProofs.zlen_arange1 0 n H) as K; unfold zlen in K; lia|]. rewrite IntgrProofs.arange_none by lia. cbn. lia. Qed.
Lemma combine_maps {A B C} (f : A -> B) (g : A -> C) l : combine (map f l) (map g l) = map (fun i => (f i, g i)) l.
Proof. induction l as [|x l IH]; [reflexivity|]. cbn. now rewrite IH. Qed.
Lemma flat_map_ext_in {A B} (f g : A -> list B) l : (forall a, In a l -> f a = g a) -> flat_map f l = flat_map g l.
Proof. intros H. rewrite !flat_map_concat_map. f_equal. now apply map_ext_in. Qed.

Lemma combine_snoc {A B} (l : list A) (m : list B) x y : length l = length m -> combine (l ++ [x]) (m ++ [y]) = combine l m ++ [(x, y)].
Proof. revert m. induction l as [|u l IH]; intros [|v m] H; try discriminate; [reflexivity|]. cbn in H |- *. now rewrite IH by lia. Qed.

Definition back0 (up : bool) (N : Z) : bool := if Nat.ltb 1 (Z.to_nat N) then negb up else false.
Definition interp_data (g : gsl) (below above : num) (up : bool) (N : Z) (d : nat) (D X XO : list Z -> num) (q : list Z) : num :=
  row_value g below above (points_of (back0 up N) N (fun j => X (insert_at (removelast q) d j)) (fun j => D (insert_at (removelast q) d j))) (XO q).

Lemma coordinate_on axes d a dx X : nth_error axes d = Some a -> coordinates_on env axes d dx X ->
  exists al X0, responds env (match dx with Some dx => dx | None => axis_var a end) X0 /\
    on_axes axes al (match dx with Some dx => dx | None => axis_var a end) /\ In d al /\
    forall q, X q = X0 (map (fun i => nth i q 0) al).
Proof.
  intros Ha HX. apply (coordinate_var env (Var axes (GetView (fun _ => None))) d a dx X Ha). destruct dx as [dx|]; [|exact HX].
  destruct HX as (al & X0 & H1 & H2 & H3 & H4 & H5). exists al, X0. split; [exact H1|]. split; [|exact H5]. split; [exact H2|]. split; [exact H3|exact H4].
Qed.

Theorem interp_spec g (x : var) D d a b inx outx X XO below above omit up :
  accepts g -> responds env x D -> nth_error (var_axes x) d = Some a -> 0 < axis_len a ->
  coordinates_on env (var_axes x) d inx X -> coordinates_on env (remove_at (var_axes x) d ++ [b]) (length (var_axes x) - 1) outx XO ->
  separate (remove_at (var_axes x) d ++ [b]) ->
  (forall r, position (map axis_len (remove_at (var_axes x) d)) r ->
     monotone up (axis_len a) (fun j => X (insert_at r d j)) /\ neighbours (axis_len a) (fun j => X (insert_at r d j))) ->
  exists y, interp_var env junk g x d b inx outx below above omit = Some y /\ var_axes y = remove_at (var_axes x) d ++ [b] /\
    responds env y (interp_data g below above up (axis_len a) d D X XO).
Proof.
  intros Hg Hx Ha HN Hinx Houtx Hsep Hmono. pose proof Hx as [Hsepx _]. assert (d < length (var_axes x))%nat as Hd by (apply nth_error_Some; congruence).
  set (rest := remove_at (var_axes x) d) in *. set (n := length (var_axes x)) in *. set (N := axis_len a) in *.
  assert (length rest = (n - 1)%nat) as Hrest by (apply length_remove_at; exact Hd).
  destruct (moved_last x D d a Hx Ha) as (inv & D' & Einv & Hinvax & Hinv & HD'). fold n rest in Einv, Hinvax, HD'.
  destruct (coordinate_on (var_axes x) d a inx X Ha Hinx) as (al & X0 & Hrx & Hon & Hin & HX). fold n in Hon.
  assert (nth_error (rest ++ [b]) (n - 1) = Some b) as Hb by (rewrite nth_error_app2, Hrest, Nat.sub_diag by lia; reflexivity).
  destruct (coordinate_on (rest ++ [b]) (n - 1) b outx XO Hb Houtx) as (ol & XO0 & Hro & Hono & Hino & HXO).
  unfold interp_var. rewrite Ha. cbn [bind]. fold n. rewrite Einv. cbn [bind]. cbv zeta.
  set (ix := match inx with Some i => i | None => axis_var a end) in *. set (ox := match outx with Some o => o | None => axis_var b end) in *.
  eexists. split; [reflexivity|]. cbn [var_axes]. rewrite Hinvax. assert (set_at (rest ++ [a]) (n - 1) b = rest ++ [b]) as Hset by (rewrite <- Hrest; apply set_last). split; [exact Hset|].
  split; [cbn [var_axes]; rewrite Hset; exact Hsep|]. cbn [var_axes var_source]. rewrite Hset. intros L HL.
  apply Forall2_app_inv_l in HL as (R & ll & HR & Hll & ->). inversion Hll as [|? l ? ? Hl Hnil]; subst. inversion Hnil; subst. clear Hll Hnil.
  unfold interp_view. cbn [vaxes view_of_inds]. rewrite app_length. cbn [length]. replace (length rest + 1 - 1)%nat with (length rest) by lia.
  rewrite Hinvax, nth_error_app2, Nat.sub_diag by lia. cbn [nth_error bind].
  assert (selection a (arange 0 N 1)) as Hwhole.
  { split; [|split].
    - rewrite IntgrProofs.arange_cons by lia. discriminate.
    - apply range_arange.
    - apply LoopProofs.increasing_arange. }
  assert (replace_axis env (view_of_inds (rest ++ [b]) (R ++ [l])) (length rest) a whole = Some (view_of_inds (rest ++ [a]) (R ++ [arange 0 N 1]))) as ->.
  { unfold replace_axis. cbn [vaxes vslices view_of_inds]. rewrite set_last, map_app. cbn [map]. pose proof (Forall2_len _ _ _ HR) as HlR. rewrite HlR, <- (map_length simplify R), set_last.
    apply (slices_inds env).
    - apply Forall2_app; [now apply selection_range|]. constructor; [apply Hwhole|constructor].
    - rewrite combine_snoc by exact HlR. apply Forall2_app; [apply (expand_all junk); now apply selection_range|]. constructor; [|constructor]. reflexivity. }
  cbn [bind]. pose proof (Forall2_len _ _ _ HR) as HlR.
  assert (Forall2 (fun a l => in_range (axis_len a) l /\ increasing l) (var_axes inv) (R ++ [arange 0 N 1])) as Hr0.
  { rewrite Hinvax. apply Forall2_app; [|constructor; [split; apply Hwhole|constructor]]. eapply Forall2_impl; [|exact HR]. intros ? ? (_ & H1 & H2). now split. }
  destruct (own_get env Henv junk inv D' _ Hinv Hr0) as (indata & Hget & Hindata). rewrite Hinvax in Hget. rewrite Hget. cbn [bind]. clear Hget Hr0.
  rewrite map_app in Hindata. cbn [map] in Hindata. assert (zlen (arange 0 N 1) = N) as HzN by (rewrite LoopProofs.zlen_arange1 by lia; lia). rewrite HzN in Hindata.
  pose proof (separate_moved (var_axes x) d a Hsepx Ha) as Hsepa. fold rest in Hsepa.
  pose proof (moved_on_axes (var_axes x) d a ix al Ha Hon) as Hon'. fold rest n in Hon'.
  assert (In (length rest) (map (loc n d) al)) as Hin'.
  { apply in_map_iff. exists d. split; [|exact Hin]. unfold loc. destruct (Nat.ltb_spec d d); [lia|]. rewrite Nat.eqb_refl. lia. }
  destruct (side ix X0 (map (loc n d) al) rest a R (arange 0 N 1) Hrx Hsepa HR Hwhole Hon' Hin') as (rx & Hgx & Hrxs). rewrite Hgx. cbn [bind]. clear Hgx. cbv zeta in Hrxs. rewrite HzN in Hrxs. destruct Hrxs as (Hxn & Hxl & Hx1).
  rewrite <- Hrest in Hino.
  destruct (side ox XO0 ol rest b R l Hro Hsep HR Hl Hono Hino) as (ro & Hgo & Hos). rewrite Hgo. cbn [bind]. clear Hgo. cbv zeta in Hos. destruct Hos as (Hon1 & Hol & Ho1).
  destruct Hindata as [Hsi Hvi]. rewrite Hsi.
  assert (vshape (view_of_inds (rest ++ [b]) (R ++ [l])) = map zlen R ++ [zlen l]) as Hvs by (unfold vshape; cbn [vinds view_of_inds]; now rewrite map_app).
  rewrite Hvs, Hxn, Hon1. clear Hxn Hon1.
  set (s := map zlen R) in *. set (m := zlen l) in *. assert (length s = length rest) as Hslen by (unfold s; rewrite map_length; lia).
  replace (nth (length rest) (s ++ [N]) 0) with N by (symmetry; rewrite <- Hslen; apply nth_last). rewrite prod_snoc, Z.div_mul by lia.
  set (ps := product (map (fun n => arange 0 n 1) s)).
  assert (Forall (fun z => 0 <= z) s) as Hsn by (apply Forall_map, Forall_forall; intros; unfold zlen; lia).
  assert (Z.to_nat (prod s) = length ps) as -> by (rewrite <- (product_length s Hsn); apply Nat2Z.id).
  set (xr := fun p => map (fun j => X (insert_at (gather R p) d j)) (arange 0 N 1)).
  set (yr := fun p => map (fun j => D (insert_at (gather R p) d j)) (arange 0 N 1)).
  set (tr := fun p => map (fun k => XO (gather (R ++ [l]) (p ++ [k]))) (arange 0 m 1)).
  assert (forall p, In p ps -> position s p /\ length p = length R) as Hps.
  { intros p Hp. apply in_positions in Hp. split; [exact Hp|]. pose proof (Forall2_len _ _ _ Hp) as K. unfold s in K. rewrite map_length in K. lia. }
  assert (forall p, In p ps -> position (map axis_len rest) (gather R p)) as Hpos.
  { intros p Hp. apply Hps in Hp as [Hp _]. apply gather_position; [apply Forall2_map_l; now apply selection_range|exact Hp]. }
  assert (forall p, In p ps -> map (fun k => X0 (map (fun i => nth i (gather (R ++ [arange 0 N 1]) (p ++ [k])) 0) (map (loc n d) al))) (arange 0 N 1) = xr p) as Hxrow.
  { intros p Hp. apply map_ext_in. intros k Hk. apply IntgrProofs.In_arange1 in Hk. destruct (Hps p Hp) as [_ Hlp]. rewrite gather_snoc by exact Hlp.
    rewrite (LoopProofs.znth_arange1 0 N k) by lia. rewrite HX, map_map. f_equal. apply map_ext_in. intros i Hi. cbn [Z.add].
    apply loc_position; [exact Hd| |].
    - pose proof (Forall2_len _ _ _ (Hpos p Hp)) as K. rewrite map_length in K. lia.
    - destruct Hon as [_ Hf]. destruct (Forall2_In_r _ _ _ _ Hf Hi) as (c & _ & Hc). apply nth_error_Some. congruence. }
  assert (entries indata = flat_map yr ps) as ->.
  { rewrite (entries_rows s N indata _ (conj Hsi Hvi)). apply flat_map_ext_in. intros p Hp. apply map_ext_in. intros k Hk. apply IntgrProofs.In_arange1 in Hk. destruct (Hps p Hp) as [_ Hlp].
    rewrite gather_snoc by exact Hlp. rewrite (LoopProofs.znth_arange1 0 N k) by lia. apply HD'. pose proof (Forall2_len _ _ _ (Hpos p Hp)) as K. rewrite map_length in K. lia. }
  assert (forall p, In p ps -> map (fun k => XO0 (map (fun i => nth i (gather (R ++ [l]) (p ++ [k])) 0) ol)) (arange 0 m 1) = tr p) as Htrow.
  { intros p Hp. apply map_ext_in. intros k Hk. now rewrite HXO. }
  assert (exists p0 ps', ps = p0 :: ps') as (p0 & ps' & Eps).
  { destruct ps as [|p0 ps'] eqn:E; [|eauto]. exfalso. pose proof (product_length s Hsn) as K. fold ps in K. rewrite E in K. cbn in K.
    assert (0 < prod s) as Hpp; [|lia]. unfold s. clear -HR. induction HR as [|c r rest R (Hne & _) HR IH]; [reflexivity|]. cbn [map]. change (prod (zlen r :: map zlen R)) with (zlen r * prod (map zlen R)).
    destruct r; [congruence|]. unfold zlen at 1. cbn [length]. lia. }
  assert (In p0 ps) as Hp0 by (rewrite Eps; now left).
  set (lx := negb (Nat.eqb (length (var_axes ix)) 1)) in *. set (lo := negb (Nat.eqb (length (var_axes ox)) 1)) in *.
  set (exs := entries (if lx then repeat_ones rx (s ++ [N]) else rx)) in *. set (eos := entries (if lo then repeat_ones ro (s ++ [m]) else ro)) in *.
  assert (exs = if lx then flat_map xr ps else xr p0) as Eexs.
  { destruct lx eqn:E.
    - rewrite (Hxl eq_refl). apply flat_map_ext_in. exact Hxrow.
    - rewrite (Hx1 eq_refl p0) by (apply Hps; exact Hp0). now apply Hxrow. }
  assert (eos = if lo then flat_map tr ps else tr p0) as Eeos.
  { destruct lo eqn:E.
    - rewrite (Hol eq_refl). apply flat_map_ext_in. exact Htrow.
    - rewrite (Ho1 eq_refl p0) by (apply Hps; exact Hp0). now apply Htrow. }
  assert (forall p, length (xr p) = Z.to_nat N /\ length (yr p) = Z.to_nat N /\ length (tr p) = Z.to_nat m) as Hlens.
  { intros p. unfold xr, yr, tr. rewrite !map_length, !length_arange. auto. }
  destruct (Hmono (gather R p0) (Hpos p0 Hp0)) as [Hm0 Hn0].
  assert (exists tl, exs = xr p0 ++ tl) as (tl & Etl).
  { rewrite Eexs. destruct lx; [rewrite Eps; cbn; eauto|]. exists []. symmetry. apply app_nil_r. }
  assert (Z.of_nat (Z.to_nat N) = N) as HNN by lia.
  destruct (order_found up (Z.to_nat N) exs (fun j => X (insert_at (gather R p0) d j))) as (dx & Edx & Eok & Eback).
  { rewrite Etl, app_length. destruct (Hlens p0) as [-> _]. lia. }
  { intros j Hj. rewrite Etl, nth_error_app1 by (destruct (Hlens p0) as [-> _]; lia). unfold xr. rewrite nth_error_map, arange_take by exact Hj. reflexivity. }
  { rewrite HNN. exact Hm0. }
  { rewrite HNN. exact Hn0. }
  unfold interpgsl. fold (step_of (Z.to_nat N) exs). rewrite Edx. cbn [bind]. rewrite Eok, Eback. fold (back0 up N). clear Eback Eok Edx dx.
  set (F := fun q => interp_data g below above up N d D X XO (gather (R ++ [l]) q)).
  set (or := fun p => map (fun k => F (p ++ [k])) (arange 0 m 1)).
  assert (n <= 1 \/ True)%nat as _ by auto.
  rewrite Eexs, Eeos.
  rewrite (arrays_spec g below above omit lx lo (back0 up N) (Z.to_nat N) (Z.to_nat m) xr yr tr or (xr p0) (tr p0) ps).
  - cbn [bind]. eexists. split; [reflexivity|]. split; [cbn [shape]; now rewrite map_app|]. cbn [val]. intros q Hq. rewrite map_app in Hq. cbn [map] in Hq. fold s m in Hq.
    assert (flat_map or ps = map F (product (map (fun n => arange 0 n 1) (s ++ [m])))) as ->.
    { rewrite map_app. cbn [map]. rewrite product_snoc. fold ps. rewrite flat_map_concat_map, (flat_map_concat_map _ ps), concat_map, map_map. f_equal. apply map_ext. intros p. unfold or. now rewrite map_map. }
    apply nth_error_nth. rewrite nth_error_map, (product_ravel _ _ Hq). reflexivity.
  - intros p _. apply Hlens.
  - intros E p Hp. rewrite <- (Hxrow p Hp), <- (Hxrow p0 Hp0). rewrite <- (Hx1 E p) by (apply Hps; exact Hp). apply (Hx1 E p0). apply Hps; exact Hp0.
  - intros E p Hp. rewrite <- (Htrow p Hp), <- (Htrow p0 Hp0). rewrite <- (Ho1 E p) by (apply Hps; exact Hp). apply (Ho1 E p0). apply Hps; exact Hp0.
  - intros p Hp. destruct (Hmono (gather R p) (Hpos p Hp)) as [Hm Hn]. destruct (Hps p Hp) as [_ Hlp].
    set (x' := fun j => X (insert_at (gather R p) d j)) in *. set (y' := fun j => D (insert_at (gather R p) d j)).
    assert (N <= 1 \/ back0 up N = negb up) as Hb0 by (unfold back0; destruct (Nat.ltb_spec 1 (Z.to_nat N)); [now right|left; lia]).
    pose proof (points_sorted up (back0 up N) N x' y' Hm Hb0) as Hsort.
    assert (collect omit (if back0 up N then rev (combine (xr p) (yr p)) else combine (xr p) (yr p)) = fins2 (points_of (back0 up N) N x' y')) as ->.
    { apply collect_all; [|exact Hsort]. unfold xr, yr. rewrite combine_maps, <- map_rev. fold x' y'. unfold points_of. rewrite <- filter_points. unfold indices. destruct (back0 up N); reflexivity. }
    destruct (row_value_spec g below above _ Hg Hsort) as [Hrow _]. rewrite Hrow. f_equal. unfold tr, or, F, interp_data. rewrite map_map. apply map_ext. intros k.
    rewrite gather_snoc by exact Hlp. rewrite removelast_last. reflexivity.
Qed.

(** *** transposition of a computed variable *)
Lemma transpose_responds (x : var) D axs : responds env x D -> axs <> [] -> Permutation axs (seq 0 (length (var_axes x))) ->
  exists y D', transpose_var env junk x axs = Some y /\ Forall2 (fun i b => nth_error (var_axes x) i = Some b) axs (var_axes y) /\ responds env y D' /\
    forall p, length p = length (var_axes x) -> D' (map (fun i => nth i p 0) axs) = D p.
Proof.
  intros Hx Hne HP. pose proof Hx as [Hsep _]. set (n := length (var_axes x)) in *.
  assert (NoDup axs) as Hnd by (eapply Permutation_NoDup; [symmetry; exact HP|apply seq_NoDup]).
  assert (forall i, In i axs <-> (i < n)%nat) as Hl. { intros i. split; intros Hi; [apply (Permutation_in _ HP), in_seq in Hi; lia|]. eapply Permutation_in; [symmetry; exact HP|]. apply in_seq. lia. }
  assert (length axs = n) as Hlen by (rewrite (Permutation_length HP); apply seq_length).
  unfold transpose_var. fold n.
  assert (forallb (fun a => Nat.ltb a n) axs = true) as Hall by (apply forallb_forall; intros i Hi; apply Nat.ltb_lt; now apply Hl).
  assert (filter (fun a => negb (existsb (Nat.eqb a) axs)) (seq 0 n) = []) as Hfil.
  { destruct (filter _ _) as [|z t] eqn:E; [reflexivity|]. assert (In z (filter (fun a => negb (existsb (Nat.eqb a) axs)) (seq 0 n))) as Hz by (rewrite E; now left).
    apply filter_In in Hz as [H1 H2]. apply in_seq in H1. rewrite (proj2 (existsb_In z axs)) in H2 by (apply Hl; lia). discriminate. }
  rewrite Hall. destruct axs as [|l0 l'] eqn:El; [congruence|]. rewrite <- El in *. cbv zeta. rewrite Hfil, app_nil_r. clear l0 l' El Hfil Hall.
  destruct (list_eq_dec Nat.eq_dec axs (seq 0 n)) as [E|E].
  - exists x, D. split; [reflexivity|]. split; [|split; [exact Hx|]].
    + rewrite E. apply Forall2_intro_nth; [apply seq_length|]. intros i j b Hj Hb. rewrite nth_error_seq in Hj. destruct (Nat.ltb_spec i n); [|discriminate]. injection Hj as <-. exact Hb.
    + intros p Hp. rewrite E, <- Hp, map_nth_all. reflexivity.
  - assert (exists B, sequence (map (fun i => nth_error (var_axes x) i) axs) = Some B) as (B & EB).
    { assert (forall l : list nat, (forall i, In i l -> (i < n)%nat) -> exists B, sequence (map (fun i => nth_error (var_axes x) i) l) = Some B) as K; [|apply K; intros i Hi; now apply Hl].
      induction l as [|i l IH]; intros Hi; [eexists; reflexivity|]. cbn [map sequence]. destruct (nth_error (var_axes x) i) as [b|] eqn:Eb; [|apply nth_error_None in Eb; specialize (Hi i (or_introl eq_refl)); fold n in Eb; lia].
      destruct IH as (B & ->); [intros j Hj; apply Hi; now right|]. eexists. reflexivity. }
    rewrite EB. pose proof (proj1 (sequence_Forall2 _ _ _) EB) as HF. pose proof (Forall2_len _ _ _ HF) as HBl.
    set (al := map (fun j => index_of j axs) (seq 0 n)).
    assert (forall j, (j < n)%nat -> nth (index_of j axs) axs 0%nat = j /\ (index_of j axs < n)%nat) as Hidx.
    { intros j Hj. rewrite <- Hlen. apply nth_index_of. now apply Hl. }
    assert (separate B) as HsepB.
    { intros i j b c Hb Hc Hij. destruct (nth_error axs i) as [i'|] eqn:Ei; [|apply nth_error_None in Ei; assert (i < length B)%nat by (apply nth_error_Some; congruence); lia].
      destruct (nth_error axs j) as [j'|] eqn:Ej; [|apply nth_error_None in Ej; assert (j < length B)%nat by (apply nth_error_Some; congruence); lia].
      pose proof (Forall2_nth_error _ _ _ _ _ _ HF Ei Hb) as K1. pose proof (Forall2_nth_error _ _ _ _ _ _ HF Ej Hc) as K2. cbv beta in K1, K2.
      apply (Hsep i' j' b c K1 K2). intros <-. apply Hij. apply (proj1 (NoDup_nth_error axs) Hnd); [apply nth_error_Some; congruence|congruence]. }
    assert (on_axes B al x) as Hon.
    { split.
      - unfold al. apply NoDup_nth_error. intros i j Hi E'. rewrite map_length, seq_length in Hi. rewrite !nth_error_map, !nth_error_seq in E'.
        destruct (Nat.ltb_spec i n); [|lia]. destruct (Nat.ltb_spec j n); [|discriminate]. cbn in E'. injection E' as E'. destruct (Hidx i Hi) as [K1 _]. destruct (Hidx j ltac:(lia)) as [K2 _]. congruence.
      - apply Forall2_intro_nth; [unfold al; rewrite map_length, seq_length; reflexivity|]. intros j a i Ha Hi. unfold al in Hi. rewrite nth_error_map, nth_error_seq in Hi. destruct (Nat.ltb_spec j n) as [Hj|]; [|discriminate]. cbn in Hi. injection Hi as <-.
        destruct (Hidx j Hj) as [K1 K2]. destruct (nth_error B (index_of j axs)) as [b|] eqn:Eb; [|apply nth_error_None in Eb; lia].
        assert (nth_error axs (index_of j axs) = Some j) as Ej by (rewrite <- K1 at 2; apply nth_error_nth'; lia).
        pose proof (Forall2_nth_error _ _ _ _ _ _ HF Ej Eb) as K. cbv beta in K. congruence. }
    exists (wrapped env junk x B), (fun q => D (map (fun i => nth i q 0) al)). split; [reflexivity|]. split; [exact HF|]. split.
    + split; [exact HsepB|]. cbn. intros L HL.
      destruct (read_other_shape env Henv junk B L x D al Hx HsepB HL Hon) as (r & Hr & Hs & Hsh & _).
      exists r. split; [exact Hr|]. apply array_shows; [exact Hsh|]. rewrite Hs. apply outshape_full. rewrite map_length. intros i Hi. rewrite <- (Forall2_len _ _ _ HL), <- HBl, Hlen in Hi.
      unfold al. apply in_map_iff. exists (nth i axs 0%nat). split; [apply index_of_nth; [exact Hnd|lia]|]. apply in_seq. split; [lia|]. cbn. apply Hl. apply nth_In. lia.
    + intros p Hp. f_equal. unfold al. rewrite map_map. transitivity (map (fun j => nth j p 0) (seq 0 n)); [|rewrite <- Hp; apply map_nth_all]. apply map_ext_in. intros j Hj. apply in_seq in Hj. destruct (Hidx j ltac:(lia)) as [K1 K2].
      rewrite (nth_indep _ 0 (nth 0 p 0)) by (rewrite map_length; lia). rewrite (map_nth (fun i => nth i p 0)). now rewrite K1.
Qed.

Lemma put_back n d : (d < n)%nat -> Permutation (seq 0 d ++ [(n - 1)%nat] ++ seq d (n - 1 - d)) (seq 0 n).
Proof.
  intros Hd. transitivity (seq 0 d ++ seq d (n - 1 - d) ++ [(n - 1)%nat]); [apply Permutation_app_head; apply (Permutation_cons_append (seq d (n - 1 - d)))|].
  rewrite app_assoc, <- seq_app. replace (d + (n - 1 - d))%nat with (n - 1)%nat by lia. replace (seq 0 (n - 1) ++ [(n - 1)%nat]) with (seq 0 n); [reflexivity|].
  replace n with (S (n - 1)) at 1 by lia. rewrite seq_S. reflexivity.
Qed.
Lemma put_back_nth {A} (r : list A) k n d z : (d < n)%nat -> length r = (n - 1)%nat -> map (fun i => nth i (r ++ [k]) z) (seq 0 d ++ [(n - 1)%nat] ++ seq d (n - 1 - d)) = insert_at r d k.
Proof.
  intros Hd Hr. apply nth_error_ext'. intros i. rewrite nth_error_insert_at by lia. rewrite nth_error_map.
  destruct (Nat.ltb_spec i d) as [H1|H1]; [|destruct (Nat.eqb_spec i d) as [->|H2]].
  - rewrite nth_error_app1 by (rewrite seq_length; lia). rewrite nth_error_seq. destruct (Nat.ltb_spec i d); [|lia]. cbn. rewrite app_nth1 by lia. symmetry. apply nth_error_nth'. lia.
  - rewrite nth_error_app2 by (rewrite seq_length; lia). rewrite seq_length, Nat.sub_diag. cbn. f_equal. rewrite app_nth2 by lia. rewrite Hr, Nat.sub_diag. reflexivity.
  - rewrite nth_error_app2 by (rewrite seq_length; lia). rewrite seq_length. destruct (i - d)%nat as [|m] eqn:Em; [lia|]. cbn [app nth_error]. rewrite nth_error_seq. destruct (Nat.ltb_spec m (n - 1 - d)) as [H3|H3].
    + cbn. rewrite app_nth1 by lia. replace (i - 1)%nat with (d + m)%nat by lia. symmetry. apply nth_error_nth'. lia.
    + cbn. symmetry. apply nth_error_None. lia.
Qed.

Theorem interpolate_spec g (x : var) D d a b inx outx X XO below above transpose omit up :
  accepts g -> responds env x D -> nth_error (var_axes x) d = Some a -> 0 < axis_len a ->
  coordinates_on env (var_axes x) d inx X -> coordinates_on env (remove_at (var_axes x) d ++ [b]) (length (var_axes x) - 1) outx XO ->
  separate (remove_at (var_axes x) d ++ [b]) ->
  (forall r, position (map axis_len (remove_at (var_axes x) d)) r ->
     monotone up (axis_len a) (fun j => X (insert_at r d j)) /\ neighbours (axis_len a) (fun j => X (insert_at r d j))) ->
  exists y E, interpolate env junk g x d b inx outx below above transpose omit = Some y /\
    var_axes y = (if transpose then remove_at (var_axes x) d ++ [b] else set_at (var_axes x) d b) /\ responds env y E /\
    forall r k, position (map axis_len (remove_at (var_axes x) d)) r ->
      exists pts, the_points (axis_len a) (fun j => X (insert_at r d j)) (fun j => D (insert_at r d j)) pts /\
        by_library g below above pts (XO (r ++ [k])) (E (if transpose then r ++ [k] else insert_at r d k)).
Proof.
  intros Hg Hx Ha HN Hinx Houtx Hsep Hmono. assert (d < length (var_axes x))%nat as Hd by (apply nth_error_Some; congruence).
  destruct (interp_spec g x D d a b inx outx X XO below above omit up Hg Hx Ha HN Hinx Houtx Hsep Hmono) as (out & H1 & H2 & H3).
  set (E0 := interp_data g below above up (axis_len a) d D X XO) in *.
  assert (forall r k, position (map axis_len (remove_at (var_axes x) d)) r -> exists pts, the_points (axis_len a) (fun j => X (insert_at r d j)) (fun j => D (insert_at r d j)) pts /\
        by_library g below above pts (XO (r ++ [k])) (E0 (r ++ [k]))) as HE0.
  { intros r k Hr. destruct (Hmono r Hr) as [Hm _]. assert (axis_len a <= 1 \/ back0 up (axis_len a) = negb up) as Hb0 by (unfold back0; destruct (Nat.ltb_spec 1 (Z.to_nat (axis_len a))); [now right|left; lia]).
    eexists. split; [exact (points_are up (back0 up (axis_len a)) (axis_len a) _ (fun j => D (insert_at r d j)) Hm Hb0)|]. unfold E0, interp_data. rewrite removelast_last.
    apply (row_value_spec g below above _ Hg). apply (points_sorted up); assumption. }
  unfold interpolate. rewrite H1. cbn [bind]. destruct transpose.
  - exists out, E0. split; [reflexivity|]. split; [exact H2|]. split; [exact H3|exact HE0].
  - cbv zeta. set (n := length (var_axes x)) in *. assert (length (var_axes out) = n) as Hn by (rewrite H2, app_length, length_remove_at by exact Hd; cbn; fold n; lia).
    destruct (transpose_responds out E0 (seq 0 d ++ [(n - 1)%nat] ++ seq d (n - 1 - d)) H3) as (y & E & Hy & Hyax & HyE & HE).
    { intros K. apply (f_equal (@length nat)) in K. rewrite !app_length in K. cbn in K. lia. }
    { rewrite Hn. now apply put_back. }
    exists y, E. split; [exact Hy|]. split; [|split; [exact HyE|]].
    + assert (length (remove_at (var_axes x) d) = (n - 1)%nat) as Hlr by (apply length_remove_at; exact Hd).
      assert (set_at (var_axes x) d b = insert_at (remove_at (var_axes x) d) d b) as ->.
      { rewrite <- (insert_remove (var_axes x) d a Ha) at 1. apply nth_error_ext'. intros i. rewrite nth_error_set_at by (rewrite length_insert; lia). rewrite !nth_error_insert_at by lia.
        destruct (Nat.eqb_spec d i) as [<-|Hne]; [destruct (Nat.ltb_spec d d); [lia|]; rewrite Nat.eqb_refl; reflexivity|]. destruct (Nat.eqb_spec i d); [lia|reflexivity]. }
      rewrite <- (put_back_nth (remove_at (var_axes x) d) b n d b Hd Hlr). rewrite <- H2. clear -Hyax.
      induction Hyax as [|i c l m Hi Hf IH]; [reflexivity|]. cbn [map]. now rewrite IH, (nth_error_nth _ _ b Hi).
    + intros r k Hr. destruct (HE0 r k Hr) as (pts & P1 & P2). exists pts. split; [exact P1|]. pose proof (Forall2_len _ _ _ Hr) as Hlr. rewrite map_length, length_remove_at in Hlr by exact Hd. fold n in Hlr.
      rewrite <- (put_back_nth r k n d 0 Hd (eq_sym Hlr)). rewrite HE; [exact P2|]. rewrite app_length, Hn. cbn. lia.
Qed.
End Var.
