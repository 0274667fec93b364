(** Lists of positions: products, fibres, reductions of an array along several axes *)
From Coq Require Import ZArith List Bool Lia Permutation Sorted.
From Verif Require Import SortSpec IndexModel IndexSpec IndexProofs ChunkProofs ArrModel ViewModel ViewSpec ArrProofs ViewProofs
  AxisModel AxisSpec AxisProofs VarOpsModel VarOpsSpec VarOpsProofs ReduceModel ReduceSpec.
Import ListNotations.
Open Scope Z_scope.

(** the whole list on the axes that go, one index on the axes that stay *)
Fixpoint fibl (gone : list bool) (J : list (list Z)) (k : list Z) : list (list Z) :=
  match gone, J with
  | true :: g, l :: J => l :: fibl g J k
  | false :: g, _ :: J => match k with x :: k => [x] :: fibl g J k | [] => [] end
  | _, _ => []
  end.

Lemma zlist_eqb_cons x y k l : zlist_eqb (x :: k) (y :: l) = (x =? y) && zlist_eqb k l.
Proof.
  apply eq_true_iff_eq. rewrite andb_true_iff, !zlist_eqb_eq, Z.eqb_eq. split; [intros [= -> ->]; auto|intros [-> ->]; auto].
Qed.

Lemma filter_map_comm {A B} (f : A -> B) p l : filter p (map f l) = map f (filter (fun x => p (f x)) l).
Proof. induction l as [|x l IH]; [reflexivity|]. cbn. destruct (p (f x)); cbn; now rewrite IH. Qed.

Lemma filter_flat_map {A B} (f : A -> list B) p l : filter p (flat_map f l) = flat_map (fun x => filter p (f x)) l.
Proof. induction l as [|x l IH]; [reflexivity|]. cbn. now rewrite filter_app, IH. Qed.

Lemma flat_map_one {A} (x : Z) (l : list Z) (r : list A) : NoDup l -> In x l -> flat_map (fun y => if x =? y then r else []) l = r.
Proof.
  induction 1 as [|y l Hni Hnd IH]; intros []; cbn.
  - subst. rewrite Z.eqb_refl. replace (flat_map _ l) with (@nil A); [apply app_nil_r|].
    symmetry. clear -Hni. induction l as [|z l IH]; [reflexivity|]. cbn. destruct (Z.eqb_spec x z); [subst; exfalso; apply Hni; now left|].
    apply IH. intro. apply Hni. now right.
  - destruct (Z.eqb_spec x y); [subst; contradiction|]. now apply IH.
Qed.

Lemma filter_product : forall gone J k, length gone = length J ->
  Forall2 (fun l x => NoDup l /\ In x l) (dropped gone J) k ->
  filter (fun q => zlist_eqb (dropped gone q) k) (product J) = product (fibl gone J k).
Proof.
  induction gone as [|g gone IH]; intros [|l J] k Hlen HF; try discriminate.
  - inversion HF; subst. reflexivity.
  - cbn in Hlen. injection Hlen as Hlen. destruct g; cbn [dropped] in HF.
    + cbn [product fibl]. rewrite filter_flat_map. apply flat_map_ext. intros x. rewrite filter_map_comm. f_equal. cbn [dropped]. now apply IH.
    + inversion HF as [|? x ? k' [Hnd Hin] HF']; subst. cbn [fibl product flat_map]. rewrite app_nil_r.
      rewrite filter_flat_map. rewrite <- (flat_map_one x l (map (cons x) (product (fibl gone J k'))) Hnd Hin).
      apply flat_map_ext. intros y. rewrite filter_map_comm. cbn [dropped]. 
      destruct (Z.eqb_spec x y).
      * subst. f_equal. rewrite <- IH by assumption. apply filter_ext. intros q. rewrite zlist_eqb_cons, Z.eqb_refl. reflexivity.
      * replace (filter _ (product J)) with (@nil (list Z)); [reflexivity|]. symmetry.
        rewrite (filter_ext _ (fun _ => false)); [clear; induction (product J); auto|]. intros q. rewrite zlist_eqb_cons.
        destruct (Z.eqb_spec y x); [congruence|reflexivity].
Qed.

Lemma filter_product_none : forall gone J k, length gone = length J ->
  ~ Forall2 (fun l x => In x l) (dropped gone J) k ->
  filter (fun q => zlist_eqb (dropped gone q) k) (product J) = [].
Proof.
  intros gone J k Hlen Hn. destruct (filter _ _) as [|q r] eqn:E; [reflexivity|]. exfalso. apply Hn.
  assert (In q (filter (fun q => zlist_eqb (dropped gone q) k) (product J))) as Hq by (rewrite E; now left).
  apply filter_In in Hq as [Hq Hk]. apply zlist_eqb_eq in Hk. subst k. apply In_elem in Hq as [j Hq].
  apply product_elem_Forall2 in Hq. clear -Hq Hlen. revert gone Hlen. induction Hq; intros [|[] g] Hlen; cbn in *; try discriminate; auto.
Qed.

Lemma dropped_nth_count gone : length (dropped gone gone) = length (filter negb gone).
Proof. induction gone as [|[] g IH]; cbn; auto. Qed.

Lemma dropped_len {A B} gone (l : list A) (l' : list B) : length l = length gone -> length l' = length gone ->
  length (dropped gone l) = length (dropped gone l').
Proof. revert l l'. induction gone as [|[] g IH]; intros [|? l] [|? l'] H H'; cbn in *; auto; discriminate. Qed.

Lemma dropped_Forall2 {A B} (R : A -> B -> Prop) gone l l' : Forall2 R l l' -> Forall2 R (dropped gone l) (dropped gone l').
Proof. intros H. revert gone. induction H; intros [|[] g]; cbn; auto. Qed.


(** ** absolute and relative fibres *)
Lemma product_cons {A} (l : list A) ls : product (l :: ls) = flat_map (fun x => map (cons x) (product ls)) l.
Proof. reflexivity. Qed.

Lemma map_gather_fibl : forall gone c p, length gone = length c -> position (map zlen (dropped gone c)) p ->
  map (gather c) (product (fibl gone (map (fun l => arange 0 (zlen l) 1) c) p)) = product (fibl gone c (gather (dropped gone c) p)).
Proof.
  induction gone as [|g gone IH]; intros [|l c] p Hlen Hp; try discriminate.
  - reflexivity.
  - cbn in Hlen. injection Hlen as Hlen. destruct g; cbn [dropped map] in *.
    + cbn [fibl product]. rewrite map_flat_map. rewrite <- (znth_arange l) at 2. rewrite flat_map_map.
      apply flat_map_ext. intros x. rewrite map_map. rewrite <- IH by assumption. rewrite map_map. reflexivity.
    + inversion Hp as [|n x ns p' Hx Hp']; subst. cbn [fibl gather product flat_map map]. rewrite !app_nil_r, map_map.
      rewrite <- IH by assumption. rewrite map_map. reflexivity.
Qed.

(** ** np_reduce *)
(** the positions marked true, in decreasing order *)
Fixpoint desc (gone : list bool) : list nat :=
  match gone with
  | [] => []
  | g :: gone => map S (desc gone) ++ (if g then [0%nat] else [])
  end.

Lemma In_desc gone i : In i (desc gone) <-> nth_error gone i = Some true.
Proof.
  revert i. induction gone as [|g gone IH]; intros i; cbn.
  - destruct i; cbn; intuition discriminate.
  - rewrite in_app_iff, in_map_iff. destruct i as [|i]; cbn.
    + destruct g; cbn; split; auto; try discriminate; intros [(? & ? & ?)|H]; try discriminate; contradiction.
    + rewrite <- IH. split.
      * intros [(j & [= ->] & Hj) | H]; [exact Hj|]. destruct g; cbn in H; [destruct H as [[=]|[]]|contradiction].
      * intros H. left. eauto.
Qed.

Lemma desc_sorted gone : StronglySorted (fun x y => (y < x)%nat) (desc gone).
Proof.
  induction gone as [|g gone IH]; cbn; [constructor|].
  assert (StronglySorted (fun x y => (y < x)%nat) (map S (desc gone))) as Hs.
  { clear -IH. induction IH as [|x l Hl IH' Hx]; cbn; constructor; auto. apply Forall_forall. intros y Hy. apply in_map_iff in Hy as (z & <- & Hz).
    rewrite Forall_forall in Hx. specialize (Hx z Hz). lia. }
  destruct g; [|rewrite app_nil_r; exact Hs].
  assert (Forall (fun x => (0 < x)%nat) (map S (desc gone))) as Hp.
  { apply Forall_forall. intros y Hy. apply in_map_iff in Hy as (z & <- & _). lia. }
  induction Hs as [|x l Hl IH' Hx]; cbn; [repeat constructor|]. inversion Hp; subst. constructor; auto.
  apply Forall_app. split; [exact Hx|]. repeat constructor. assumption.
Qed.

Lemma insert_desc_In x l y : In y (insert_desc x l) <-> y = x \/ In y l.
Proof.
  induction l as [|z l IH]; cbn; [intuition|]. destruct (Nat.leb z x); cbn; [intuition|]. rewrite IH. intuition.
Qed.
Lemma insert_desc_sorted x l : StronglySorted (fun x y => (y < x)%nat) l -> ~ In x l -> StronglySorted (fun x y => (y < x)%nat) (insert_desc x l).
Proof.
  induction 1 as [|z l Hl IH Hz]; intros Hn; cbn; [repeat constructor|]. destruct (Nat.leb_spec z x).
  - constructor; [constructor; auto|]. assert (z <> x) by (intros ->; apply Hn; now left). constructor; [lia|].
    eapply Forall_impl; [|exact Hz]. cbn. lia.
  - constructor; [apply IH; intro; apply Hn; now right|]. apply Forall_forall. intros y Hy. apply insert_desc_In in Hy as [->|Hy]; [lia|].
    rewrite Forall_forall in Hz. auto.
Qed.
Lemma sort_desc_In l y : In y (sort_desc l) <-> In y l.
Proof. induction l as [|x l IH]; cbn; [tauto|]. rewrite insert_desc_In, IH. intuition. Qed.
Lemma sort_desc_sorted l : NoDup l -> StronglySorted (fun x y => (y < x)%nat) (sort_desc l).
Proof. induction 1; cbn; [constructor|]. apply insert_desc_sorted; auto. now rewrite sort_desc_In. Qed.

Lemma sorted_same l : StronglySorted (fun x y => (y < x)%nat) l -> forall l', StronglySorted (fun x y => (y < x)%nat) l' ->
  (forall x, In x l <-> In x l') -> l = l'.
Proof.
  induction 1 as [|x l Hl IH Hx]; intros l' Hs' Heq.
  - destruct l' as [|y l']; [reflexivity|]. exfalso. apply (proj2 (Heq y)). now left.
  - destruct Hs' as [|y l' Hl' Hy].
    + exfalso. apply (proj1 (Heq x)). now left.
    + rewrite Forall_forall in Hx, Hy. assert (x = y).
      { destruct (proj1 (Heq x) (or_introl eq_refl)) as [->|H1]; [reflexivity|]. destruct (proj2 (Heq y) (or_introl eq_refl)) as [->|H2]; [reflexivity|].
        specialize (Hx _ H2). specialize (Hy _ H1). lia. }
      subst. f_equal. apply IH; [assumption|]. intros z. split; intros Hz.
      * destruct (proj1 (Heq z) (or_intror Hz)) as [->|]; [|assumption]. specialize (Hx _ Hz). lia.
      * destruct (proj2 (Heq z) (or_intror Hz)) as [->|]; [|assumption]. specialize (Hy _ Hz). lia.
Qed.

Lemma nth_error_gone n indices i : nth_error (gone_axes n indices) i = if Nat.ltb i n then Some (existsb (Nat.eqb i) indices) else None.
Proof. unfold gone_axes. rewrite nth_error_map, nth_error_seq. destruct (Nat.ltb i n); reflexivity. Qed.

Lemma sort_desc_eq n indices : NoDup indices -> Forall (fun i => (i < n)%nat) indices -> sort_desc indices = desc (gone_axes n indices).
Proof.
  intros Hnd Hlt. apply sorted_same; [now apply sort_desc_sorted|apply desc_sorted|]. intros i.
  rewrite sort_desc_In, In_desc, nth_error_gone. rewrite Forall_forall in Hlt. split.
  - intros Hi. destruct (Nat.ltb_spec i n); [|specialize (Hlt _ Hi); lia]. f_equal. now apply existsb_In.
  - destruct (Nat.ltb i n); [|discriminate]. intros [= H]. now apply existsb_In in H.
Qed.

Lemma kept_dropped {A} (l : list A) indices : kept_axes l indices = dropped (gone_axes (length l) indices) l.
Proof.
  unfold kept_axes, gone_axes. generalize 0%nat. induction l as [|a l IH]; intros k; [reflexivity|].
  cbn [length seq combine filter map dropped]. destruct (existsb (Nat.eqb k) indices); cbn; now rewrite IH.
Qed.

Lemma length_gone n indices : length (gone_axes n indices) = n.
Proof. unfold gone_axes. now rewrite map_length, seq_length. Qed.

Section Agg.
Context {V : Type} (agg : list V -> V).

Definition at_head (a : arr V) (x : Z) : arr V := Arr (tl (shape a)) (fun p => val a (x :: p)).

Lemma reduce_tail axes : forall (a : arr V) n s, shape a = n :: s ->
  let r := fold_left (fun a i => reduce_axis agg a i) (map S axes) a in
  (exists s', shape r = n :: s' /\ forall x, shape (fold_left (fun a i => reduce_axis agg a i) axes (at_head a x)) = s') /\
  forall x p, val r (x :: p) = val (fold_left (fun a i => reduce_axis agg a i) axes (at_head a x)) p.
Proof.
  assert (forall axes (b1 b2 : arr V), shape b1 = shape b2 -> (forall p, val b1 p = val b2 p) ->
    shape (fold_left (fun a i => reduce_axis agg a i) axes b1) = shape (fold_left (fun a i => reduce_axis agg a i) axes b2) /\
    forall p, val (fold_left (fun a i => reduce_axis agg a i) axes b1) p = val (fold_left (fun a i => reduce_axis agg a i) axes b2) p) as Hext.
  { clear. induction axes as [|i axes IH]; intros b1 b2 Hs Hv; cbn; [auto|]. apply IH; cbn; [now rewrite Hs|].
    intros p. rewrite Hs. f_equal. apply map_ext. auto. }
  induction axes as [|i axes IH]; intros a n s Hs; cbn [map fold_left].
  - split; [|reflexivity]. exists s. split; [exact Hs|]. intros x. cbn. now rewrite Hs.
  - assert (shape (reduce_axis agg a (S i)) = n :: remove_at s i) as Hs1 by (cbn; rewrite Hs; reflexivity).
    assert (forall x, shape (at_head (reduce_axis agg a (S i)) x) = shape (reduce_axis agg (at_head a x) i)) as Hsh.
    { intros x. cbn [at_head shape reduce_axis]. rewrite Hs. reflexivity. }
    assert (forall x p, val (at_head (reduce_axis agg a (S i)) x) p = val (reduce_axis agg (at_head a x) i) p) as Hvh.
    { intros x p. cbn. rewrite Hs. reflexivity. }
    destruct (IH _ _ _ Hs1) as [(s' & Hr & Hs') Hv]. split.
    + exists s'. split; [exact Hr|]. intros x. rewrite <- (Hs' x). symmetry. apply Hext; auto.
    + intros x p. rewrite Hv. apply Hext; auto.
Qed.

Lemma reduce_desc (R : list V -> V -> Prop) :
  (forall v, R [v] v) -> (forall ls vs, Forall2 R ls vs -> R (concat ls) (agg vs)) ->
  forall gone (a : arr V), length gone = length (shape a) ->
  let r := fold_left (fun a i => reduce_axis agg a i) (desc gone) a in
  shape r = dropped gone (shape a) /\
  forall p, length p = length (dropped gone (shape a)) ->
    R (map (val a) (product (fibl gone (map (fun n => arange 0 n 1) (shape a)) p))) (val r p).
Proof.
  intros R1 Ragg. induction gone as [|g gone IH]; intros a Hlen; destruct (shape a) as [|n s] eqn:Hs; try discriminate.
  - cbn. split; [exact Hs|]. intros [|] Hp; [|discriminate]. apply R1.
  - cbn in Hlen. injection Hlen as Hlen. cbn [desc]. rewrite fold_left_app.
    set (m := fold_left (fun a i => reduce_axis agg a i) (map S (desc gone)) a).
    destruct (reduce_tail (desc gone) a n s Hs) as [(s' & Hms & Hs') Hmv]. fold m in Hms, Hmv.
    assert (forall x, shape (fold_left (fun a i => reduce_axis agg a i) (desc gone) (at_head a x)) = dropped gone s /\
              forall p, length p = length (dropped gone s) ->
                R (map (fun q => val a (x :: q)) (product (fibl gone (map (fun n => arange 0 n 1) s) p)))
                  (val (fold_left (fun a i => reduce_axis agg a i) (desc gone) (at_head a x)) p)) as HI.
    { intros x. specialize (IH (at_head a x)). cbn [at_head shape] in IH. rewrite Hs in IH. cbn [tl] in IH. apply IH. exact Hlen. }
    assert (s' = dropped gone s) as -> by (rewrite <- (Hs' 0); apply HI).
    destruct g; cbn [fold_left].
    + cbn [dropped]. split; [cbn; now rewrite Hms|]. intros p Hp.
      cbn [fibl map product]. rewrite map_flat_map. cbn [reduce_axis val]. rewrite Hms. cbn [nth].
      rewrite flat_map_concat_map. apply Ragg.
      clear -HI Hmv Hp. induction (arange 0 n 1) as [|x l IHl]; cbn [map]; constructor; [|exact IHl].
      cbn [insert_at]. rewrite Hmv, map_map. apply HI. exact Hp.
    + cbn [dropped]. split; [exact Hms|]. intros [|x p] Hp; [discriminate|]. cbn in Hp. injection Hp as Hp.
      cbn [fibl map product flat_map]. rewrite app_nil_r, map_map. rewrite Hmv. apply HI. exact Hp.
Qed.
End Agg.

Lemma np_reduce_spec {V} (agg : list V -> V) (R : list V -> V -> Prop) indices (a : arr V) :
  (forall v, R [v] v) -> (forall ls vs, Forall2 R ls vs -> R (concat ls) (agg vs)) ->
  NoDup indices -> Forall (fun i => (i < length (shape a))%nat) indices ->
  let gone := gone_axes (length (shape a)) indices in
  shape (np_reduce agg a indices) = dropped gone (shape a) /\
  forall p, length p = length (dropped gone (shape a)) ->
    R (map (val a) (product (fibl gone (map (fun n => arange 0 n 1) (shape a)) p))) (val (np_reduce agg a indices) p).
Proof.
  intros R1 Ragg Hnd Hlt gone. unfold np_reduce. rewrite (sort_desc_eq _ _ Hnd Hlt). apply (reduce_desc agg R); auto. apply length_gone.
Qed.
