(** Lemmas about numpy array operations (ArrModel.v) *)
From Coq Require Import ZArith List Bool Lia Permutation.
From Verif Require Import SortSpec IndexModel IndexSpec IndexProofs ChunkProofs ArrModel ViewModel ViewSpec.
Import ListNotations.
Open Scope Z_scope.
Ltac Zify.zify_post_hook ::= Z.to_euclidean_division_equations.

Lemma znth_elem l i x : elem l i x -> znth l i = x.
Proof. intros [_ H]. unfold znth. now apply nth_error_nth. Qed.
Lemma elem_znth l i : 0 <= i < zlen l -> elem l i (znth l i).
Proof. intros H. destruct (elem_ex l i H) as [x Hx]. now rewrite (znth_elem _ _ _ Hx). Qed.

Lemma Forall2_len {A B} (R : A -> B -> Prop) l l' : Forall2 R l l' -> length l = length l'.
Proof. induction 1; simpl; congruence. Qed.

Lemma gather_position inds ns p : Forall2 (fun n l => in_range n l) ns inds -> position (map zlen inds) p -> position ns (gather inds p).
Proof.
  intros H. revert p. induction H as [|n l ns inds Hl H IH]; intros p Hp; inversion Hp; subst; cbn [gather]; constructor; [|now apply IH].
  eapply in_range_elem; [exact Hl|]. now apply elem_znth.
Qed.

Lemma gather_length inds p : length inds = length p -> length (gather inds p) = length p.
Proof. revert p; induction inds as [|l ls IH]; intros [|x p] H; simpl in *; try lia. now rewrite IH by lia. Qed.

Lemma gather_gather inds inds' p : position (map zlen inds') p ->
  Forall2 (fun l l' => in_range (zlen l) l') inds inds' ->
  gather inds (gather inds' p) = gather (map (fun '(l, l') => map (znth l) l') (combine inds inds')) p.
Proof.
  intros Hp H. revert p Hp. induction H as [|l l' ls ls' Hl H IH]; intros p Hp; inversion Hp; subst; cbn [map combine gather]; [reflexivity|].
  f_equal; [|now apply IH]. symmetry. apply znth_elem. apply elem_map. exists (znth l' y). split; [now apply elem_znth|reflexivity].
Qed.

Lemma array_is_ext {V} (r : arr V) s D D' : array_is r s D -> (forall p, position s p -> D p = D' p) -> array_is r s D'.
Proof. intros [H1 H2] H. split; [assumption|]. intros p Hp. rewrite H2 by assumption. now apply H. Qed.

(** ** slicing *)
Lemma np_index_simplify ind n : in_range n ind -> np_index (simplify ind) n = Some ind.
Proof.
  intros H. pose proof (simplify_selects ind n H) as Hs. destruct (simplify ind) as [s|i|l] eqn:E; cbn [np_selects np_index] in *.
  - destruct Hs as [Hs1 Hs2]. destruct (Z.eqb_spec (eff_step s) 0); [contradiction|]. f_equal. apply list_ext. intros k x.
    rewrite elem_arange by assumption. symmetry. apply Hs2.
  - exfalso. clear -E. destruct ind as [|a [|b l]]; cbn in E; try discriminate. destruct (_ || _) in E; discriminate.
  - subst l.
    assert (forallb (fun i => (- n <=? i) && (i <? n)) ind = true) as ->.
    { apply forallb_forall. intros x Hx. apply (proj1 (Forall_forall _ _) H) in Hx. apply andb_true_intro. split; [apply Z.leb_le|apply Z.ltb_lt]; lia. }
    f_equal. rewrite <- (map_id ind) at 2. apply map_ext_in. intros x Hx. apply (proj1 (Forall_forall _ _) H) in Hx. unfold from_end. destruct (Z.ltb_spec x 0); lia.
Qed.

Lemma nth_middle' {A} (l : list A) x l' d : nth (length l) (l ++ x :: l') d = x.
Proof. apply nth_middle. Qed.
Lemma set_at_middle {A} (l : list A) x l' v : set_at (l ++ x :: l') (length l) v = l ++ v :: l'.
Proof. induction l; simpl; congruence. Qed.

Lemma apply_slices_spec {V} : forall inds ns sp (a : arr V), shape a = sp ++ ns ->
  Forall2 (fun n l => in_range n l) ns inds ->
  exists r, apply_slices (length sp) (map simplify inds) a = Some r /\ shape r = sp ++ map zlen inds /\
    forall pp p, length pp = length sp -> length p = length ns -> val r (pp ++ p) = val a (pp ++ gather inds p).
Proof.
  intros inds ns sp a Hs H. revert sp a Hs. induction H as [|n l ns inds Hl H IH]; intros sp a Hs.
  - cbn. exists a. split; [reflexivity|]. split; [assumption|]. intros pp p _ Hp. destruct p; [reflexivity|discriminate].
  - cbn [map apply_slices]. rewrite Hs, nth_middle'. rewrite np_index_simplify by assumption.
    destruct (IH (sp ++ [zlen l]) (take_axis a (length sp) l)) as (r & Hr & Hsh & Hv).
    { cbn. rewrite Hs, set_at_middle, <- app_assoc. reflexivity. }
    rewrite app_length in Hr. cbn [length] in Hr. rewrite Nat.add_1_r in Hr. exists r. split; [exact Hr|]. split.
    { rewrite Hsh, <- app_assoc. reflexivity. }
    intros pp p Hpp Hp. destruct p as [|x p]; [discriminate|]. cbn [gather].
    replace (pp ++ x :: p) with ((pp ++ [x]) ++ p) by (now rewrite <- app_assoc).
    rewrite Hv by (rewrite ?app_length; simpl in *; lia). cbn [take_axis val]. rewrite <- app_assoc. cbn [app].
    rewrite <- Hpp, nth_middle', set_at_middle. reflexivity.
Qed.

(** ** np.unique, searchsorted *)
Lemma insert_In x l y : In y (insert x l) <-> y = x \/ In y l.
Proof.
  induction l as [|z l IH]; cbn [insert]; [simpl; intuition|].
  destruct (Z.ltb_spec x z); [simpl; intuition|]. destruct (Z.eqb_spec x z); [subst; simpl; intuition|]. simpl. rewrite IH. intuition.
Qed.
Lemma unique_In l y : In y (np_unique l) <-> In y l.
Proof. unfold np_unique. induction l as [|x l IH]; cbn [fold_right]; [tauto|]. rewrite insert_In, IH. simpl. intuition. Qed.

Inductive sorted : list Z -> Prop :=
| so_nil : sorted []
| so_cons x l : (forall y, In y l -> x < y) -> sorted l -> sorted (x :: l).
Lemma insert_sorted x l : sorted l -> sorted (insert x l).
Proof.
  induction 1 as [|z l Hz Hl IH]; cbn [insert]; [constructor; [intros ? []|constructor]|].
  destruct (Z.ltb_spec x z).
  - constructor; [|now constructor]. intros y [<-|Hy]; [assumption|specialize (Hz y Hy); lia].
  - destruct (Z.eqb_spec x z); [now constructor|]. constructor; [|assumption].
    intros y Hy. apply insert_In in Hy as [->|Hy]; [lia|now apply Hz].
Qed.
Lemma unique_sorted l : sorted (np_unique l).
Proof. unfold np_unique. induction l; cbn [fold_right]; [constructor|now apply insert_sorted]. Qed.
Lemma sorted_increasing l : sorted l -> increasing l.
Proof.
  induction 1 as [|z l Hz Hl IH]; intros i j x y Hi Hj Hij; [now apply elem_nil in Hi|].
  apply elem_cons in Hi as [[-> ->]|[Hi0 Hi]]; apply elem_cons in Hj as [[-> ->]|[Hj0 Hj]]; try lia.
  - apply Hz. eapply elem_In, Hj.
  - eapply IH; [exact Hi|exact Hj|lia].
Qed.
Lemma unique_ne l : l <> [] -> np_unique l <> [].
Proof. destruct l as [|x l]; [congruence|]. intros _ E. assert (In x (np_unique (x :: l))) as H by (apply unique_In; now left). rewrite E in H. destruct H. Qed.
Lemma unique_range n l : in_range n l -> in_range n (np_unique l).
Proof. intros H. apply Forall_forall. intros x Hx. rewrite unique_In in Hx. exact (proj1 (Forall_forall _ _) H x Hx). Qed.

Lemma searchsorted_elem u x : sorted u -> In x u -> elem u (searchsorted u x) x.
Proof.
  induction 1 as [|z l Hz Hl IH]; intros Hin; [destruct Hin|]. unfold searchsorted. cbn [filter].
  destruct Hin as [->|Hin].
  - destruct (Z.ltb_spec x x); [lia|].
    assert (filter (fun y => y <? x) l = []) as ->.
    { clear -Hz. induction l as [|y l IH]; [reflexivity|]. cbn. destruct (Z.ltb_spec y x); [specialize (Hz y (or_introl eq_refl)); lia|]. apply IH. intros; apply Hz; now right. }
    now apply elem_0.
  - destruct (Z.ltb_spec z x); [|specialize (Hz x Hin); lia]. rewrite zlen_cons. apply elem_S; [apply zlen_nonneg|]. now apply IH.
Qed.

Lemma np_all_eq_request n ind : ind <> [] -> in_range n ind -> np_all_eq (np_unique ind) ind = true -> request n ind.
Proof.
  intros Hne Hr H. split; [assumption|]. split; [assumption|]. unfold np_all_eq in H.
  destruct (Nat.eqb_spec (length (np_unique ind)) (length ind)) as [E|E].
  - left. replace ind with (np_unique ind); [apply sorted_increasing, unique_sorted|].
    revert E H. generalize (np_unique ind) as u. clear. induction ind as [|y l IH]; intros [|x u] E H; simpl in *; try lia; [reflexivity|].
    apply andb_prop in H as [H1 H2]. apply Z.eqb_eq in H1. subst. f_equal. apply IH; [lia|assumption].
  - right. destruct (np_unique ind) as [|x [|? ?]]; try discriminate. intros a b Ha Hb.
    pose proof (proj1 (forallb_forall _ _) H) as H'. apply H' in Ha, Hb. apply Z.eqb_eq in Ha, Hb. congruence.
Qed.

(** ** reading by blocks *)
Lemma inside_covers outsl p : length outsl = length p -> inside outsl p = true <-> covers outsl p.
Proof.
  revert p; induction outsl as [|[i j] os IH]; intros [|x p] H; simpl in H; try lia.
  - split; [constructor|reflexivity].
  - unfold inside. cbn [combine forallb]. fold (inside os p). rewrite !andb_true_iff, IH, Z.leb_le, Z.ltb_lt by lia. split.
    + intros [H1 H2]. constructor; [exact H1|assumption].
    + inversion 1; subst. split; assumption.
Qed.

Lemma copied_fun start outsl p q : copied start outsl p q -> q = plus start (map (fun '((i, _), x) => x - i) (combine outsl p)).
Proof. induction 1; [reflexivity|]. cbn. now rewrite IHcopied. Qed.
Lemma picks_gather inds p q : picks inds p q -> q = gather inds p.
Proof. induction 1; [reflexivity|]. cbn. f_equal; [|assumption]. symmetry. now apply znth_elem. Qed.

Lemma elem_tail {A} (a : A) l k x : elem l k x -> elem (a :: l) (k + 1) x.
Proof. intros H. apply elem_S; [apply H|assumption]. Qed.

Lemma read_pieces_spec {V} (f : list Z -> list Z -> option (arr V)) (D : list Z -> V) inds : forall pieces a0,
  (forall outsl start count, In (outsl, start, count) pieces ->
     length outsl = length inds /\
     (exists b, f start count = Some b /\ array_is b count (fun p => D (plus start p))) /\
     Forall2 (fun ij c => 0 <= fst ij /\ 0 < c /\ snd ij = fst ij + c) outsl count /\
     forall p, covers outsl p -> exists q, picks inds p q /\ copied start outsl p q) ->
  exists r, read_pieces f pieces a0 = Some r /\ shape r = shape a0 /\
    forall p, length p = length inds ->
      ((exists outsl start count, In (outsl, start, count) pieces /\ covers outsl p) -> val r p = D (gather inds p)) /\
      (~ (exists outsl start count, In (outsl, start, count) pieces /\ covers outsl p) -> val r p = val a0 p).
Proof.
  induction pieces as [|[[outsl start] count] t IH]; intros a0 H.
  - exists a0. split; [reflexivity|]. split; [reflexivity|]. intros p Hp. split; [intros (? & ? & ? & [] & _)|reflexivity].
  - cbn [read_pieces]. destruct (H outsl start count (or_introl eq_refl)) as (Hlen & (b & Hb & Hsh & Hv) & Hoc & Hcov).
    rewrite Hb. destruct (list_eq_dec Z.eq_dec (shape b) count); [|contradiction].
    destruct (IH (assign a0 outsl b)) as (r & Hr & Hs & Hp).
    { intros; apply H; now right. }
    exists r. split; [exact Hr|]. split; [exact Hs|]. intros p Hpl. destruct (Hp p Hpl) as [H1 H2].
    assert ((exists o s c, In (o, s, c) t /\ covers o p) \/ ~ (exists o s c, In (o, s, c) t /\ covers o p)) as Hdec.
    { clear -Hpl H. assert (forall o s c, In (o, s, c) t -> length o = length p) as Hl by (intros o s c Hin; destruct (H o s c (or_intror Hin)) as [-> _]; auto).
      clear H. induction t as [|[[o s] c] t IH]; [right; intros (? & ? & ? & [] & _)|].
      destruct IH as [(o' & s' & c' & Hin & Hc)|Hn]; [intros; eapply Hl; right; eassumption|left; exists o', s', c'; split; [now right|assumption]|].
      destruct (inside o p) eqn:E.
      - left. exists o, s, c. split; [now left|]. apply inside_covers; [eapply Hl; now left|assumption].
      - right. intros (o' & s' & c' & [Heq|Hin] & Hc); [|apply Hn; exists o', s', c'; auto]. injection Heq as -> -> ->.
        apply inside_covers in Hc; [congruence|eapply Hl; now left]. }
    assert (val (assign a0 outsl b) p = if inside outsl p then D (gather inds p) else val a0 p) as Hva.
    { cbn. destruct (inside outsl p) eqn:E; [|reflexivity]. apply inside_covers in E; [|lia].
      destruct (Hcov p E) as (q & Hq1 & Hq2). rewrite Hv.
      - rewrite <- (picks_gather _ _ _ Hq1). f_equal. symmetry. now apply copied_fun.
      - clear -E Hoc. revert p E. induction Hoc as [|[i j] c os cs (H1 & H2 & H3) Hoc IH]; intros p E; inversion E; subst; cbn [combine map]; constructor; [|now apply IH].
        cbn [fst snd] in *. lia. }
    split.
    + intros (o & s & c & [Heq|Hin] & Hc); [|apply H1; exists o, s, c; auto]. injection Heq as <- <- <-.
      destruct Hdec as [Hd|Hd]; [now apply H1|]. rewrite H2 by assumption. rewrite Hva.
      replace (inside outsl p) with true; [reflexivity|]. symmetry. apply inside_covers; [lia|assumption].
    + intros Hn. rewrite H2 by (intros (o & s & c & Hin & Hc); apply Hn; exists o, s, c; split; [now right|assumption]).
      rewrite Hva. destruct (inside outsl p) eqn:E; [|reflexivity]. exfalso. apply Hn. exists outsl, start, count. split; [now left|].
      apply inside_covers; [lia|assumption].
Qed.

(** ** reshape *)
Lemma prod_pos s p : position s p -> 0 < prod s.
Proof. induction 1; cbn; [lia|]. unfold prod in *. nia. Qed.
Lemma ravel_bound s p : position s p -> 0 <= ravel s p < prod s.
Proof.
  induction 1 as [|n x s p Hx Hp IH]; [cbn; lia|]. cbn [ravel]. change (prod (n :: s)) with (n * prod s). pose proof (prod_pos _ _ Hp). nia.
Qed.
Lemma unravel_ravel s p : position s p -> unravel s (ravel s p) = p.
Proof.
  induction 1 as [|n x s p Hx Hp IH]; [reflexivity|]. cbn [ravel unravel].
  pose proof (prod_pos _ _ Hp). pose proof (ravel_bound _ _ Hp).
  rewrite Z.div_add_l by lia. rewrite Z.div_small by lia. rewrite Z.add_0_r. f_equal.
  rewrite Z.add_comm, Z.mod_add by lia. rewrite Z.mod_small by lia. exact IH.
Qed.
Lemma unravel_position s k : 0 <= k < prod s -> Forall (fun n => 0 < n) s -> position s (unravel s k) /\ ravel s (unravel s k) = k.
Proof.
  intros Hk Hs. revert k Hk. induction Hs as [|n s Hn Hs IH]; intros k Hk.
  - cbn in *. split; [constructor|]. change (prod []) with 1 in Hk. lia.
  - change (prod (n :: s)) with (n * prod s) in Hk. cbn [unravel ravel].
    assert (0 < prod s) as Hp by (clear -Hs; induction Hs; cbn; [lia|unfold prod in *; nia]).
    pose proof (Z.mod_pos_bound k (prod s) Hp). destruct (IH (k mod prod s) H) as [H1 H2].
    split; [constructor; [|assumption]|]. 
    + split; [apply Z.div_pos; lia|]. apply Z.div_lt_upper_bound; lia.
    + rewrite H2. pose proof (Z.div_mod k (prod s)). lia.
Qed.

(** keeping the coordinates of the axes with an entry in [order] *)
Fixpoint keep {B} (order : list (option nat)) (p : list B) : list B :=
  match order, p with
  | Some _ :: o, x :: p => x :: keep o p
  | None :: o, _ :: p => keep o p
  | _, _ => []
  end.

Lemma prod_keep s order : length s = length order -> prod (shape_or_1 s order) = prod (keep order s).
Proof.
  revert order; induction s as [|n s IH]; intros [|[j|] order] H; simpl in H; try lia; [reflexivity| |];
  cbn [keep]; unfold shape_or_1; cbn [combine map]; fold (shape_or_1 s order);
  [change (prod (?a :: ?b)) with (a * prod b)|change (prod (1 :: ?b)) with (1 * prod b)].
  - change (prod (n :: shape_or_1 s order)) with (n * prod (shape_or_1 s order)). change (prod (n :: keep order s)) with (n * prod (keep order s)).
    rewrite IH by lia. reflexivity.
  - rewrite IH by lia. lia.
Qed.
Lemma keep_position s order p : length s = length order -> position (shape_or_1 s order) p ->
  position (keep order s) (keep order p) /\ ravel (shape_or_1 s order) p = ravel (keep order s) (keep order p).
Proof.
  revert order p; induction s as [|n s IH]; intros [|[j|] order] p H Hp; simpl in H; try lia.
  - inversion Hp. split; [constructor|reflexivity].
  - unfold shape_or_1 in Hp |- *. cbn [combine map] in *. fold (shape_or_1 s order) in *. inversion Hp; subst. cbn [keep ravel].
    destruct (IH order l') as [HA HB]; [lia|assumption|]. split; [now constructor|]. rewrite HB, prod_keep by lia. reflexivity.
  - unfold shape_or_1 in Hp |- *. cbn [combine map] in *. fold (shape_or_1 s order) in *. inversion Hp; subst. cbn [keep ravel].
    destruct (IH order l') as [HA HB]; [lia|assumption|]. split; [assumption|]. rewrite HB. assert (y = 0) by lia. subst. lia.
Qed.

Lemma reshape_keep {V} (a : arr V) s order D : length s = length order -> array_is a (keep order s) D ->
  exists r, reshape a (shape_or_1 s order) = Some r /\ array_is r (shape_or_1 s order) (fun p => D (keep order p)).
Proof.
  intros Hl [Hs Hv]. unfold reshape. rewrite Hs, prod_keep, Z.eqb_refl by assumption.
  eexists. split; [reflexivity|]. split; [reflexivity|]. intros p Hp. cbn.
  destruct (keep_position s order p Hl Hp) as [H1 H2]. rewrite H2, unravel_ravel by assumption. now apply Hv.
Qed.

(** ** transpose *)
Lemma index_of_keep order : forall i j (p : list Z), nth_error order i = Some (Some j) -> length p = length order ->
  (forall i', nth_error order i' = Some (Some j) -> i' = i) ->
  nth (index_of j (somes order)) (keep order p) 0 = nth i p 0.
Proof.
  induction order as [|[k|] order IH]; intros i j p Hi Hl Hu.
  - destruct i; discriminate.
  - destruct p as [|x p]; [discriminate|]. unfold somes. cbn [flat_map app]. fold (somes order). cbn [index_of keep].
    destruct i as [|i].
    + injection Hi as ->. rewrite Nat.eqb_refl. reflexivity.
    + destruct (Nat.eqb_spec k j) as [->|E]; [specialize (Hu 0%nat eq_refl); discriminate|].
      cbn [nth]. apply (IH i j p); [exact Hi|simpl in Hl; lia|]. intros i' Hi'. specialize (Hu (S i') Hi'). lia.
  - destruct p as [|x p]; [discriminate|]. unfold somes. cbn [flat_map app]. fold (somes order). cbn [keep].
    destruct i as [|i]; [discriminate|]. cbn [nth]. apply (IH i j p); [exact Hi|simpl in Hl; lia|]. intros i' Hi'. specialize (Hu (S i') Hi'). lia.
Qed.

Lemma In_somes {B} (l : list (option B)) b : In b (somes l) <-> exists i, nth_error l i = Some (Some b).
Proof.
  unfold somes. rewrite in_flat_map. split.
  - intros ([b'|] & H1 & H2); [|destruct H2]. destruct H2 as [->|[]]. apply In_nth_error in H1. exact H1.
  - intros [i Hi]. exists (Some b). split; [eapply nth_error_In, Hi|now left].
Qed.
