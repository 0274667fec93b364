(** The partial sums of tools.c and tools.py. *)
From Coq Require Import ZArith List Bool Lia ZifyBool Permutation.
From Verif Require Import SortSpec TimeSearchSpec IndexModel IndexSpec IndexProofs ArrModel ArrProofs ViewModel ViewSpec ViewProofs NumModel NumProofs ReduceModel StencilModel StencilProofs SmoothModel IntgrProofs ChunkProofs LoopProofs InterpProofs InterpView ClimModel.
Import ListNotations.
Open Scope Z_scope.
Notation zlen := IndexSpec.zlen.

Definition total {A} (op : A -> A -> A) (e : A) (l : list A) : A := fold_right op e l.

Section Fold.
Context {St A : Type} (f : A -> St -> option St).
Definition run_all (l : list A) (s : option St) : option St := fold_left (fun s a => bind s (f a)) l s.
Lemma run_none l : run_all l None = None.
Proof. induction l as [|a l IH]; [reflexivity|exact IH]. Qed.
Lemma run_app l l' s : run_all (l ++ l') s = run_all l' (run_all l s).
Proof. apply fold_left_app. Qed.
Lemma run_flat {B} (g : B -> list A) l : forall s, run_all (flat_map g l) s = fold_left (fun s b => bind s (fun s => run_all (g b) (Some s))) l s.
Proof.
  induction l as [|b l IH]; intros s; [reflexivity|]. cbn [flat_map fold_left]. rewrite run_app, IH. f_equal.
  destruct s; [reflexivity|apply run_none].
Qed.
End Fold.

Lemma fold_bind_ext {St A} (f g : A -> St -> option St) l : (forall a s, In a l -> f a s = g a s) -> forall s, fold_left (fun s a => bind s (f a)) l s = fold_left (fun s a => bind s (g a)) l s.
Proof.
  induction l as [|a l IH]; intros H s; [reflexivity|]. cbn [fold_left]. rewrite IH by (intros; apply H; now right).
  f_equal. destruct s as [s|]; [|reflexivity]. apply H. now left.
Qed.
Lemma filter_flat_map {A B} (p : B -> bool) (f : A -> list B) l : filter p (flat_map f l) = flat_map (fun a => filter p (f a)) l.
Proof. induction l as [|a l IH]; [reflexivity|]. cbn. now rewrite filter_app, IH. Qed.
Lemma flat_map_nil {A B} (f : A -> list B) l : (forall a, In a l -> f a = []) -> flat_map f l = [].
Proof. induction l as [|a l IH]; intros H; [reflexivity|]. cbn. rewrite (H a) by now left. apply IH. intros; apply H; now right. Qed.
Lemma flat_map_single {A B} (f : A -> list B) l x : NoDup l -> In x l -> (forall a, In a l -> a <> x -> f a = []) -> flat_map f l = f x.
Proof.
  induction l as [|a l IH]; intros Hd Hx H; [destruct Hx|]. inversion Hd; subst. destruct Hx as [<-|Hx]; cbn [flat_map].
  - rewrite flat_map_nil, app_nil_r; [reflexivity|]. intros b Hb. apply H; [now right|]. intros ->. contradiction.
  - rewrite (H a); [|now left|intros ->; contradiction]. apply IH; try assumption. intros; apply H; [now right|assumption].
Qed.

(** one addition *)
Definition step (skip : num -> bool) (a : Z * num) (s : list num * list Z) : option (list num * list Z) :=
  if skip (snd a) then Some s else
  bind (bump (fst s) (fst a) (fun v => add v (snd a))) (fun out => bind (bump (snd s) (fst a) (fun v => v + 1)) (fun count => Some (out, count))).
Definition hit (skip : num -> bool) (j : Z) (a : Z * num) : bool := (fst a =? j) && negb (skip (snd a)).

Lemma bump_ok {A} (l : list A) i (f : A -> A) d : 0 <= i < zlen l ->
  bump l i f = Some (set_at l (Z.to_nat i) (f (nth (Z.to_nat i) l d))).
Proof.
  intros H. unfold bump, peek, TimeSearchModel.znth. destruct (Z.ltb_spec i 0); [lia|].
  destruct (nth_error l (Z.to_nat i)) as [x|] eqn:E; cbn [bind].
  - now rewrite (nth_error_nth _ _ d E).
  - apply nth_error_None in E. unfold zlen in H. lia.
Qed.
Lemma zlen_set_at {A} (l : list A) i x : zlen (set_at l i x) = zlen l.
Proof. unfold zlen. now rewrite length_set_at. Qed.
Lemma run_step skip l : forall out count, (forall a, In a l -> 0 <= fst a < zlen out) -> zlen count = zlen out ->
  exists out' count', run_all (step skip) l (Some (out, count)) = Some (out', count') /\ zlen out' = zlen out /\ zlen count' = zlen out /\
    forall j, 0 <= j < zlen out ->
      nth (Z.to_nat j) out' NaN = add (nth (Z.to_nat j) out NaN) (total add zero (map snd (filter (hit skip j) l))) /\
      nth (Z.to_nat j) count' 0 = nth (Z.to_nat j) count 0 + zlen (filter (hit skip j) l).
Proof.
  induction l as [|[k e] l IH]; intros out count Hb Hc.
  - exists out, count. split; [reflexivity|]. split; [reflexivity|]. split; [assumption|]. intros j Hj. cbn. split; [now rewrite add_0_r|change (zlen (@nil (Z * num))) with 0; lia].
  - assert (0 <= k < zlen out) as Hk by (apply (Hb (k, e)); now left).
    cbn [run_all fold_left bind]. unfold step at 2. cbn [fst snd]. destruct (skip e) eqn:Es.
    + destruct (IH out count) as (o & c & Hr & H1 & H2 & H3); [intros; apply Hb; now right|assumption|].
      exists o, c. split; [exact Hr|]. split; [assumption|]. split; [assumption|]. intros j Hj. cbn [filter]. assert (hit skip j (k, e) = false) as -> by (unfold hit; cbn [fst snd]; rewrite Es; apply andb_false_r).
      apply H3, Hj.
    + rewrite (bump_ok out k _ NaN Hk), (bump_ok count k _ 0) by lia. cbn [bind].
      destruct (IH (set_at out (Z.to_nat k) (add (nth (Z.to_nat k) out NaN) e)) (set_at count (Z.to_nat k) (nth (Z.to_nat k) count 0 + 1)))
        as (o & c & Hr & H1 & H2 & H3).
      * intros a Ha. rewrite zlen_set_at. apply Hb. now right.
      * now rewrite !zlen_set_at.
      * rewrite zlen_set_at in H1, H2, H3. exists o, c. split; [exact Hr|]. split; [assumption|]. split; [assumption|].
        intros j Hj. destruct (H3 j Hj) as [A B]. rewrite A, B. cbn [filter]. assert (hit skip j (k, e) = (k =? j)) as -> by (unfold hit; cbn [fst snd]; rewrite Es; apply andb_true_r).
        rewrite !nth_set_at by (unfold zlen in Hk, Hc; lia).
        assert (Nat.eqb (Z.to_nat k) (Z.to_nat j) = (k =? j)) as ->.
        { destruct (Z.eqb_spec k j) as [->|Hn]; [apply Nat.eqb_refl|]. apply Nat.eqb_neq. lia. }
        destruct (Z.eqb_spec k j) as [->|Hn]; [|split; reflexivity].
        cbn [map total fold_right snd]. split; [now rewrite add_assoc|]. rewrite zlen_cons. lia.
Qed.

Lemma peek_ok l i : 0 <= i < zlen l -> peek l i = Some (ArrModel.znth l i).
Proof.
  intros H. unfold peek, TimeSearchModel.znth, ArrModel.znth. destruct (Z.ltb_spec i 0); [lia|]. apply nth_error_nth'. unfold zlen in H. lia.
Qed.
Lemma peek_num (l : list num) i : 0 <= i < zlen l -> peek l i = Some (nth (Z.to_nat i) l NaN).
Proof.
  intros H. unfold peek, TimeSearchModel.znth. destruct (Z.ltb_spec i 0); [lia|]. apply nth_error_nth'. unfold zlen in H. lia.
Qed.

Section C.
Context (skip : num -> bool) (nx nin nout ny : Z) (inp : list num) (outmap : list Z)
        (Hnx : 0 <= nx) (Hnin : 0 <= nin) (Hnout : 0 <= nout) (Hny : 0 <= ny)
        (Hin : zlen inp = nx * nin * ny) (Hmap : zlen outmap = nin) (Hout : Forall (fun o => 0 <= o < nout) outmap).
Let elt x i y := nth (Z.to_nat (x * nin * ny + i * ny + y)) inp NaN.
Let bin i := ArrModel.znth outmap i.
Definition acts (x i : Z) : list (Z * num) := map (fun y => (x * nout * ny + bin i * ny + y, elt x i y)) (arange 0 ny 1).

Lemma bin_range i : 0 <= i < nin -> 0 <= bin i < nout.
Proof. intros H. apply (proj1 (Forall_forall _ _) Hout). apply elem_In with i. apply elem_znth. lia. Qed.
Lemma flat_index x i y m : 0 <= x < nx -> 0 <= i < m -> 0 <= y < ny -> 0 <= x * m * ny + i * ny + y < nx * m * ny.
Proof.
  intros Hx Hi Hy. assert (x * m + i + 1 <= nx * m) as H by nia. assert (0 <= x * m + i) as H0 by nia.
  pose proof (Z.mul_le_mono_nonneg_r _ _ ny Hny H). pose proof (Z.mul_nonneg_nonneg _ _ H0 Hny). lia.
Qed.

Lemma c_as_run out count : c_partial_sum skip nx nin nout ny inp out count outmap =
  run_all (step skip) (flat_map (fun x => flat_map (acts x) (arange 0 nin 1)) (arange 0 nx 1)) (Some (out, count)).
Proof.
  rewrite run_flat. unfold c_partial_sum, for_ at 1. apply fold_bind_ext. intros x s Hx. apply In_arange1 in Hx.
  rewrite run_flat. unfold for_ at 1. apply fold_bind_ext. intros i s' Hi. apply In_arange1 in Hi.
  rewrite peek_ok by lia. cbn [bind]. unfold for_, run_all, acts.
  rewrite <- (map_id (arange 0 ny 1)) at 1.
  generalize (Some s'). assert (forall y, In y (arange 0 ny 1) -> 0 <= y < ny) as Hy by (intros y Hy; apply In_arange1 in Hy; lia).
  clear s s'. induction (arange 0 ny 1) as [|y l IH]; intros s; [reflexivity|]. cbn [map fold_left].
  rewrite IH by (intros; apply Hy; now right). f_equal. destruct s as [[o c]|]; [|reflexivity]. cbn [bind].
  rewrite peek_num; [reflexivity|]. rewrite Hin. apply flat_index; try lia. apply Hy. now left.
Qed.

Lemma filter_acts x o y : 0 <= x < nx -> 0 <= o < nout -> 0 <= y < ny ->
  filter (hit skip (x * nout * ny + o * ny + y)) (flat_map (fun x => flat_map (acts x) (arange 0 nin 1)) (arange 0 nx 1)) =
  map (fun i => (x * nout * ny + o * ny + y, elt x i y)) (filter (fun i => (bin i =? o) && negb (skip (elt x i y))) (arange 0 nin 1)).
Proof.
  intros Hx Ho Hy. rewrite filter_flat_map.
  assert (forall x' i, 0 <= x' < nx -> 0 <= i < nin -> filter (hit skip (x * nout * ny + o * ny + y)) (acts x' i) =
            if (x' =? x) && (bin i =? o) && negb (skip (elt x i y)) then [(x * nout * ny + o * ny + y, elt x i y)] else []) as K.
  { intros x' i Hx' Hi. pose proof (bin_range i Hi) as Hb. unfold acts.
    assert (forall y', 0 <= y' < ny -> (x' * nout * ny + bin i * ny + y' =? x * nout * ny + o * ny + y) = ((x' =? x) && (bin i =? o) && (y' =? y))) as E.
    { intros y' Hy'. destruct (Z.eqb_spec (x' * nout * ny + bin i * ny + y') (x * nout * ny + o * ny + y)) as [E|E].
      - assert (x' * nout + bin i = x * nout + o) as E1.
        { assert ((x' * nout + bin i) * ny + y' = (x * nout + o) * ny + y) as E' by lia. nia. }
        assert (y' = y) by nia. assert (x' = x) by nia. assert (bin i = o) by nia. subst. rewrite !Z.eqb_refl. reflexivity.
      - symmetry. apply not_true_is_false. intros T. apply andb_true_iff in T as [T T3]. apply andb_true_iff in T as [T1 T2].
        apply Z.eqb_eq in T1, T2, T3. apply E. rewrite T1, T2, T3. reflexivity. }
    assert (forall l, NoDup l -> (forall y', In y' l -> 0 <= y' < ny) ->
              filter (hit skip (x * nout * ny + o * ny + y)) (map (fun y => (x' * nout * ny + bin i * ny + y, elt x' i y)) l) =
              if (x' =? x) && (bin i =? o) && negb (skip (elt x i y)) && (existsb (Z.eqb y) l) then [(x * nout * ny + o * ny + y, elt x i y)] else []) as G.
    { induction l as [|y' l IH]; intros Hd Hl; [cbn; now rewrite andb_false_r|]. inversion Hd as [|? ? Hni Hd']; subst. cbn [map filter existsb].
      rewrite IH by (try assumption; intros; apply Hl; now right). assert (hit skip (x * nout * ny + o * ny + y) (x' * nout * ny + bin i * ny + y', elt x' i y') = (x' =? x) && (bin i =? o) && (y' =? y) && negb (skip (elt x' i y'))) as -> by (unfold hit; cbn [fst snd]; rewrite E by (apply Hl; now left); reflexivity).
      destruct (Z.eqb_spec x' x) as [->|]; cbn [andb]; [|reflexivity]. destruct (Z.eqb_spec (bin i) o) as [Eb|]; cbn [andb]; [|reflexivity].
      rewrite (Z.eqb_sym y y'). destruct (Z.eqb_spec y' y) as [->|Hn]; cbn [andb orb]; [|reflexivity].
      assert (existsb (Z.eqb y) l = false) as ->.
      { apply not_true_is_false. intros T. apply existsb_exists in T as (z & Hz & T). apply Z.eqb_eq in T. subst. contradiction. }
      destruct (skip (elt x i y)); cbn [negb andb]; [reflexivity|]. now rewrite Eb. }
    rewrite G.
    - assert (existsb (Z.eqb y) (arange 0 ny 1) = true) as ->; [|now rewrite andb_true_r].
      apply existsb_exists. exists y. split; [apply In_arange1; lia|apply Z.eqb_refl].
    - apply increasing_NoDup, increasing_arange.
    - intros y' Hy'. apply In_arange1 in Hy'. lia. }
  rewrite (flat_map_single _ _ x).
  - rewrite filter_flat_map. assert (forall i, In i (arange 0 nin 1) -> 0 <= i < nin) as Hr by (intros i Hi; apply In_arange1 in Hi; lia).
    induction (arange 0 nin 1) as [|i l IH]; [reflexivity|]. cbn [flat_map filter]. rewrite IH by (intros; apply Hr; now right).
    rewrite K by (try assumption; apply Hr; now left). rewrite Z.eqb_refl. cbn [andb]. destruct ((bin i =? o) && negb (skip (elt x i y))); reflexivity.
  - apply increasing_NoDup, increasing_arange.
  - apply In_arange1; lia.
  - intros x' Hx' Hne. apply In_arange1 in Hx'. rewrite filter_flat_map. apply flat_map_nil. intros i Hi. apply In_arange1 in Hi.
    rewrite K by lia. destruct (Z.eqb_spec x' x); [contradiction|reflexivity].
Qed.

Theorem c_partial_sum_spec : exists out count,
  c_partial_sum skip nx nin nout ny inp (repeat zero (Z.to_nat (nx * nout * ny))) (repeat 0 (Z.to_nat (nx * nout * ny))) outmap = Some (out, count) /\
  forall x o y, 0 <= x < nx -> 0 <= o < nout -> 0 <= y < ny ->
    let l := filter (fun i => (bin i =? o) && negb (skip (elt x i y))) (arange 0 nin 1) in
    nth (Z.to_nat (x * nout * ny + o * ny + y)) out NaN = total add zero (map (fun i => elt x i y) l) /\
    nth (Z.to_nat (x * nout * ny + o * ny + y)) count 0 = zlen l.
Proof.
  rewrite c_as_run.
  set (N := nx * nout * ny). assert (0 <= N) as HN by (unfold N; nia).
  destruct (run_step skip (flat_map (fun x => flat_map (acts x) (arange 0 nin 1)) (arange 0 nx 1)) (repeat zero (Z.to_nat N)) (repeat 0 (Z.to_nat N))) as (out & count & Hr & H1 & H2 & H3).
  - intros a Ha. apply in_flat_map in Ha as (x & Hx & Ha). apply in_flat_map in Ha as (i & Hi & Ha). apply in_map_iff in Ha as (y & <- & Hy).
    apply In_arange1 in Hx, Hi, Hy. cbn [fst]. unfold zlen. rewrite repeat_length, Z2Nat.id by assumption. apply flat_index; try lia. apply bin_range. lia.
  - unfold zlen. now rewrite !repeat_length.
  - exists out, count. split; [exact Hr|]. intros x o y Hx Ho Hy l.
    assert (0 <= x * nout * ny + o * ny + y < N) as Hj by (apply flat_index; assumption).
    destruct (H3 (x * nout * ny + o * ny + y)) as [A B]; [unfold zlen; rewrite repeat_length, Z2Nat.id; assumption|].
    rewrite A, B, (filter_acts x o y Hx Ho Hy), map_map.
    rewrite (nth_indep _ NaN zero) by (rewrite repeat_length; lia). rewrite !nth_repeat, add_0_l. split; [reflexivity|].
    unfold zlen. rewrite map_length. reflexivity.
Qed.
End C.

Lemma prod_app s1 s2 : prod (s1 ++ s2) = prod s1 * prod s2.
Proof. induction s1 as [|n s1 IH]; [cbn [app]; unfold prod at 2; cbn [fold_right]; ring|]. cbn [app]. unfold prod in *. cbn [fold_right]. rewrite IH. ring. Qed.
Lemma ravel_app s1 s2 : forall p1 p2, length p1 = length s1 -> ravel (s1 ++ s2) (p1 ++ p2) = ravel s1 p1 * prod s2 + ravel s2 p2.
Proof.
  induction s1 as [|n s1 IH]; intros [|x p1] p2 H; try discriminate; [reflexivity|]. cbn [app ravel]. rewrite IH by (cbn in H; lia).
  rewrite prod_app. ring.
Qed.
Lemma prod_nonneg s : Forall (fun n => 0 <= n) s -> 0 <= prod s.
Proof. induction 1 as [|n s H Hs IH]; [cbn; lia|]. unfold prod in *. cbn [fold_right]. nia. Qed.
Lemma split_shape (s : list Z) d : (d < length s)%nat -> s = firstn d s ++ nth d s 0 :: skipn (S d) s.
Proof.
  intros H. rewrite <- (firstn_skipn d s) at 1. f_equal. revert s H. induction d as [|d IH]; intros [|n s] H; cbn in H; try lia; [reflexivity|].
  cbn [skipn nth]. apply IH. lia.
Qed.
Lemma set_shape (s : list Z) d n : (d < length s)%nat -> set_at s d n = firstn d s ++ n :: skipn (S d) s.
Proof.
  revert s. induction d as [|d IH]; intros [|m s] H; cbn in H; try lia; [reflexivity|]. cbn [set_at firstn skipn app]. f_equal. apply IH. lia.
Qed.
Lemma position_app s1 s2 p : position (s1 ++ s2) p -> exists p1 p2, p = p1 ++ p2 /\ position s1 p1 /\ position s2 p2.
Proof. intros H. apply Forall2_app_inv_l in H as (p1 & p2 & A & B & ->). exists p1, p2. auto. Qed.

Theorem partial_sum_spec skip (a : arr num) s E d nout outmap : array_is a s E -> (d < length s)%nat -> Forall (fun n => 0 <= n) s -> 0 <= nout ->
  outmap <> [] -> zlen outmap = nth d s 0 -> Forall (fun o => 0 <= o < nout) outmap ->
  exists out count, partial_sum skip a nout d outmap = Some (out, count) /\ shape out = set_at s d nout /\ shape count = set_at s d nout /\
    forall p, position (set_at s d nout) p ->
      let l := filter (fun i => (ArrModel.znth outmap i =? nth d p 0) && negb (skip (E (set_at p d i)))) (arange 0 (nth d s 0) 1) in
      val out p = total add zero (map (fun i => E (set_at p d i)) l) /\ val count p = zlen l.
Proof.
  intros [Hs HE] Hd Hnn Hno Hne Hlen Hr. subst s. unfold partial_sum. destruct outmap as [|o0 om]; [contradiction|].
  set (outmap := o0 :: om) in *. rewrite Hlen, Z.eqb_refl. cbn [andb].
  assert (forallb (fun o => (0 <=? o) && (o <? nout)) outmap = true) as ->.
  { apply forallb_forall. intros o Ho. pose proof (proj1 (Forall_forall _ _) Hr o Ho) as K. cbv beta in K. lia. }
  set (s1 := firstn d (shape a)). set (s2 := skipn (S d) (shape a)). set (n := nth d (shape a) 0).
  assert (shape a = s1 ++ n :: s2) as Esh by (apply split_shape, Hd).
  assert (prod (set_at (shape a) d nout) = prod s1 * nout * prod s2) as Ep.
  { rewrite set_shape by assumption. fold s1 s2. rewrite prod_app. unfold prod. cbn [fold_right]. ring. }
  assert (Forall (fun n => 0 <= n) s1 /\ 0 <= n /\ Forall (fun n => 0 <= n) s2) as (N1 & N & N2).
  { rewrite Esh in Hnn. apply Forall_app in Hnn as [A B]. inversion B; subst. auto. }
  rewrite Ep.
  destruct (c_partial_sum_spec skip (prod s1) n nout (prod s2) (entries a) outmap (prod_nonneg _ N1) N Hno (prod_nonneg _ N2)) as (out & count & Hc & Hv).
  - unfold entries, zlen. rewrite map_length, product_length by assumption. rewrite Esh, prod_app. unfold prod. cbn [fold_right]. ring.
  - exact Hlen.
  - exact Hr.
  - rewrite Hc. cbn [bind]. eexists. eexists. split; [reflexivity|]. split; [reflexivity|]. split; [reflexivity|].
    intros p Hp. set (l := filter (fun i => (ArrModel.znth outmap i =? nth d p 0) && negb (skip (E (set_at p d i)))) (arange 0 n 1)). cbn [val].
    assert (length s1 = d) as L1 by (unfold s1; rewrite firstn_length; lia).
    rewrite set_shape in Hp by assumption. fold s1 s2 in Hp. apply position_app in Hp as (p1 & p2' & Ep' & P1 & P2).
    inversion P2 as [|? o ? p2 Ho P2' Ex1 Ex2]; clear P2; subst p2' p.
    assert (length p1 = length s1) as Lp by (symmetry; eapply ArrProofs.Forall2_len, P1).
    assert (forall i, set_at (p1 ++ o :: p2) d i = p1 ++ i :: p2) as Eset.
    { intros i. rewrite <- L1, <- Lp. apply set_at_middle. }
    assert (nth d (p1 ++ o :: p2) 0 = o) as Enth by (rewrite <- L1, <- Lp; apply nth_middle').
    assert (forall m i, ravel (s1 ++ m :: s2) (p1 ++ i :: p2) = ravel s1 p1 * m * prod s2 + i * prod s2 + ravel s2 p2) as Er.
    { intros m i. rewrite ravel_app by assumption. cbn [ravel]. unfold prod at 1. cbn [fold_right]. fold (prod s2). ring. }
    rewrite set_shape by assumption. fold s1 s2. rewrite Er.
    pose proof (ravel_bound _ _ P1) as B1. pose proof (ravel_bound _ _ P2') as B2.
    destruct (Hv (ravel s1 p1) o (ravel s2 p2) B1 Ho B2) as [A B].
    assert (forall i, 0 <= i < n -> nth (Z.to_nat (ravel s1 p1 * n * prod s2 + i * prod s2 + ravel s2 p2)) (entries a) NaN = E (set_at (p1 ++ o :: p2) d i)) as Ee.
    { intros i Hi. rewrite Eset. rewrite <- Er, <- Esh.
      assert (position (shape a) (p1 ++ i :: p2)) as Hq.
      { rewrite Esh. apply Forall2_app; [exact P1|]. constructor; assumption. }
      unfold entries. rewrite <- (HE _ Hq). apply nth_error_nth. rewrite nth_error_map, (product_ravel _ _ Hq). reflexivity. }
    assert (l = filter (fun i => (ArrModel.znth outmap i =? o) && negb (skip (nth (Z.to_nat (ravel s1 p1 * n * prod s2 + i * prod s2 + ravel s2 p2)) (entries a) NaN))) (arange 0 n 1)) as El.
    { unfold l. apply filter_ext_in. intros i Hi. apply In_arange1 in Hi. rewrite Ee by (fold n in Hi; lia). now rewrite Enth. }
    split.
    + rewrite A, <- El. f_equal. apply map_ext_in. intros i Hi. apply Ee. unfold l in Hi. apply filter_In in Hi as [Hi _]. apply In_arange1 in Hi. fold n in Hi. lia.
    + rewrite B, <- El. reflexivity.
Qed.
