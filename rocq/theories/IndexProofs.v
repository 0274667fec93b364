(** Proofs about IndexModel.v *)
From Coq Require Import ZArith List Bool Lia Permutation.
From Verif Require Import SortSpec IndexModel IndexSpec.
Import ListNotations.
Open Scope Z_scope.
Ltac Zify.zify_post_hook ::= Z.to_euclidean_division_equations.

(** ** element access *)
Lemma elem_nil {A} k (x : A) : ~ elem [] k x.
Proof. intros [_ H]. now destruct (Z.to_nat k). Qed.
Lemma elem_0 {A} (a : A) l x : elem (a :: l) 0 x <-> x = a.
Proof. unfold elem; simpl. split; [intros [_ H]; congruence|intros ->; split; [lia|reflexivity]]. Qed.
Lemma elem_S {A} (a : A) l k x : 0 <= k -> elem (a :: l) (k + 1) x <-> elem l k x.
Proof.
  intros Hk. unfold elem. replace (Z.to_nat (k + 1)) with (S (Z.to_nat k)) by lia. simpl.
  split; intros [_ H]; split; try lia; exact H.
Qed.
Lemma elem_cons {A} (a : A) l k x : elem (a :: l) k x <-> (k = 0 /\ x = a) \/ (0 < k /\ elem l (k - 1) x).
Proof.
  destruct (Z.eq_dec k 0) as [->|Hk].
  - rewrite elem_0. split; [intros ->; left; auto|intros [[_ ->]|[? _]]; [auto|lia]].
  - destruct (Z_lt_le_dec k 0) as [Hn|Hp].
    + split; [intros [? _]; lia|intros [[? _]|[? _]]; lia].
    + replace k with ((k - 1) + 1) at 1 by lia. rewrite elem_S by lia.
      split; [intros H; right; split; [lia|assumption]|intros [[? _]|[_ H]]; [lia|assumption]].
Qed.
Lemma elem_lt {A} (l : list A) k x : elem l k x -> 0 <= k < zlen l.
Proof. intros [H0 H]. unfold zlen. assert (nth_error l (Z.to_nat k) <> None) as Hn by congruence.
  apply nth_error_Some in Hn. lia. Qed.
Lemma elem_ex {A} (l : list A) k : 0 <= k < zlen l -> exists x, elem l k x.
Proof.
  intros H. unfold zlen in H. destruct (nth_error l (Z.to_nat k)) as [x|] eqn:E.
  - exists x. split; [lia|assumption].
  - apply nth_error_None in E. lia.
Qed.
Lemma elem_fun {A} (l : list A) k x y : elem l k x -> elem l k y -> x = y.
Proof. intros [_ H] [_ H']. congruence. Qed.
Lemma elem_In {A} (l : list A) k x : elem l k x -> In x l.
Proof. intros [_ H]. eapply nth_error_In, H. Qed.
Lemma In_elem {A} (l : list A) x : In x l -> exists k, elem l k x.
Proof. intros H. apply In_nth_error in H as [n H]. exists (Z.of_nat n). split; [lia|now rewrite Nat2Z.id]. Qed.
Lemma elem_app {A} (l l' : list A) k x :
  elem (l ++ l') k x <-> elem l k x \/ (zlen l <= k /\ elem l' (k - zlen l) x).
Proof.
  unfold elem, zlen. split.
  - intros [H0 H]. destruct (Z_lt_le_dec k (Z.of_nat (length l))).
    + left. rewrite nth_error_app1 in H by lia. auto.
    + right. rewrite nth_error_app2 in H by lia. split; [lia|]. split; [lia|].
      replace (Z.to_nat (k - Z.of_nat (length l))) with (Z.to_nat k - length l)%nat by lia. assumption.
  - intros [[H0 H]|[Hl [H0 H]]].
    + split; [lia|]. rewrite nth_error_app1; [assumption|]. apply nth_error_Some. congruence.
    + split; [lia|]. rewrite nth_error_app2 by lia.
      replace (Z.to_nat (k - Z.of_nat (length l))) with (Z.to_nat k - length l)%nat in H by lia. assumption.
Qed.
Lemma elem_map {A B} (f : A -> B) l k y : elem (map f l) k y <-> exists x, elem l k x /\ y = f x.
Proof.
  unfold elem. rewrite nth_error_map. destruct (nth_error l (Z.to_nat k)) as [x|]; simpl.
  - split; [intros [H [= <-]]; exists x; auto|intros (x' & [H [= <-]] & ->); auto].
  - split; [intros [_ [=]]|intros (x & [_ [=]] & _)].
Qed.
Lemma zlen_nonneg {A} (l : list A) : 0 <= zlen l.
Proof. unfold zlen; lia. Qed.
Lemma zlen_cons {A} (a : A) l : zlen (a :: l) = zlen l + 1.
Proof. unfold zlen; simpl length; lia. Qed.
Lemma zlen_app {A} (l l' : list A) : zlen (l ++ l') = zlen l + zlen l'.
Proof. unfold zlen; rewrite app_length; lia. Qed.
Lemma zlen_map {A B} (f : A -> B) l : zlen (map f l) = zlen l.
Proof. unfold zlen; now rewrite map_length. Qed.

Lemma list_ext {A} (l l' : list A) : (forall k x, elem l k x <-> elem l' k x) -> l = l'.
Proof.
  revert l'; induction l as [|a l IH]; intros [|b l'] H.
  - reflexivity.
  - exfalso. apply (elem_nil 0 b), H, elem_0. reflexivity.
  - exfalso. apply (elem_nil 0 a), H, elem_0. reflexivity.
  - f_equal; [apply (proj1 (elem_0 b l' a)), H, elem_0; reflexivity|].
    apply IH. intros k x. destruct (Z_lt_le_dec k 0) as [Hk|Hk].
    + split; intros [? _]; lia.
    + rewrite <- (elem_S a l), <- (elem_S b l') by assumption. apply H.
Qed.

(** ** arange *)
Definition alen start stop step : Z :=
  if 0 <? step then (stop - start + step - 1) / step else (start - stop - step - 1) / (- step).

Lemma elem_arange start stop step k x : step <> 0 ->
  elem (arange start stop step) k x <->
  0 <= k /\ x = start + k * step /\ (0 < step -> x < stop) /\ (step < 0 -> stop < x).
Proof.
  intros Hs. unfold arange. fold (alen start stop step). rewrite elem_map.
  assert (forall j, elem (seq 0 (Z.to_nat (alen start stop step))) k j <->
                    0 <= k < alen start stop step /\ j = Z.to_nat k) as Hseq.
  { intros j. unfold elem. split.
    - intros [H0 H]. assert (nth_error (seq 0 (Z.to_nat (alen start stop step))) (Z.to_nat k) <> None) as Hn by congruence.
      apply nth_error_Some in Hn. rewrite seq_length in Hn.
      pose proof (nth_error_nth _ _ 0%nat H) as E. rewrite seq_nth in E by lia. lia.
    - intros [H ->]. split; [lia|]. erewrite nth_error_nth'; [|rewrite seq_length; lia].
      f_equal. instantiate (1 := 0%nat). rewrite seq_nth by lia. lia. }
  split.
  - intros (j & Hj & ->). apply Hseq in Hj as [Hk ->]. rewrite Z2Nat.id by lia.
    unfold alen in Hk. destruct (Z.ltb_spec 0 step); repeat split; try lia; intros; nia.
  - intros (Hk & -> & Hp & Hn). exists (Z.to_nat k). split; [|rewrite Z2Nat.id by lia; reflexivity].
    apply Hseq. split; [|reflexivity]. split; [assumption|]. unfold alen.
    destruct (Z.ltb_spec 0 step) as [H|H].
    + specialize (Hp H). nia.
    + assert (step < 0) as H' by lia. specialize (Hn H'). nia.
Qed.

(** ** expand *)
Definition unclipped (s : slice) (n : Z) : Prop :=
  (0 < eff_step s -> (forall x, s_start s = Some x -> - n <= x) /\ (forall x, s_stop s = Some x -> x <= n)) /\
  (eff_step s < 0 -> (forall x, s_start s = Some x -> x <= n - 1) /\ (forall x, s_stop s = Some x -> - n - 1 <= x)).

Lemma expand_selects s n : 0 <= n -> eff_step s <> 0 -> unclipped s n ->
  exists l, expand (SSlice s) n = Some l /\ selects s n l.
Proof.
  intros Hn Hs [Hp Hm]. destruct s as [start stop step]. unfold eff_step in *. cbn [s_start s_stop s_step] in *.
  cbn [expand]. set (st := match step with Some k => k | None => 1 end) in *.
  destruct (Z.eqb_spec st 0) as [E|_]; [contradiction|].
  eexists. split; [reflexivity|]. split; [exact Hs|].
  intros k x. unfold eff_start, eff_stop, eff_step. cbn [s_start s_stop s_step]. fold st. rewrite elem_arange by exact Hs.
  unfold limit, from_end. destruct (Z.ltb_spec 0 st) as [Hst|Hst].
  - destruct (Hp Hst) as [H1 H2]. clear Hp Hm.
    destruct start as [a|]; [specialize (H1 a eq_refl)|clear H1];
    (destruct stop as [b|]; [specialize (H2 b eq_refl)|clear H2]);
    repeat match goal with |- context [?x <? ?y] => destruct (Z.ltb_spec x y) end;
    (split; intros (Hk & -> & Hx & _); split; [exact Hk| |exact Hk|]);
    assert (0 <= k * st) by nia; specialize (Hx Hst);
    (split; [lia|split; intros; lia]).
  - assert (st < 0) as Hst' by lia. destruct (Hm Hst') as [H1 H2]. clear Hp Hm.
    destruct start as [a|]; [specialize (H1 a eq_refl)|clear H1];
    (destruct stop as [b|]; [specialize (H2 b eq_refl)|clear H2]);
    repeat match goal with |- context [?x <? ?y] => destruct (Z.ltb_spec x y) end;
    (split; intros (Hk & -> & _ & Hx); split; [exact Hk| |exact Hk|]);
    assert (k * st <= 0) by nia; specialize (Hx Hst');
    (split; [lia|split; intros; lia]).
Qed.

(** ** simplify *)
Lemma diff_cons2 x y l : diff (x :: y :: l) = (y - x) :: diff (y :: l).
Proof. reflexivity. Qed.

Lemma regular_elem d : forall l a, forallb (Z.eqb d) (diff (a :: l)) = true ->
  forall k x, elem (a :: l) k x -> x = a + k * d.
Proof.
  induction l as [|b l IH]; intros a H k x Hx.
  - apply elem_cons in Hx as [[-> ->]|[_ Hx]]; [lia|now apply elem_nil in Hx].
  - rewrite diff_cons2 in H. cbn [forallb] in H. apply andb_prop in H as [H1 H2]. apply Z.eqb_eq in H1.
    apply elem_cons in Hx as [[-> ->]|[Hk Hx]]; [lia|].
    apply (IH b H2) in Hx. nia.
Qed.

Lemma last_elem (l : list Z) a : elem (a :: l) (zlen l) (last (a :: l) 0).
Proof.
  revert a; induction l as [|b l IH]; intros a.
  - apply elem_0. reflexivity.
  - rewrite zlen_cons. replace (last (a :: b :: l) 0) with (last (b :: l) 0) by reflexivity.
    apply elem_S; [apply zlen_nonneg|]. apply IH.
Qed.

(* simplify yields either the list itself or a slice with the arithmetic progression *)
Lemma simplify_cases ind : simplify ind = SList ind \/
  exists a d, d <> 0 /\ ind <> [] /\ (forall k x, elem ind k x <-> 0 <= k < zlen ind /\ x = a + k * d) /\
    simplify ind = SSlice (Slice (Some a) (if a + zlen ind * d <? 0 then None else Some (a + zlen ind * d)) (Some d)) \/
    (exists i, ind = [i] /\ simplify ind = SSlice (Slice (Some i) (Some (i + 1)) (Some 1))).
Proof.
  destruct ind as [|a [|b l]].
  - left; reflexivity.
  - right. exists 0, 0. right. exists a. split; reflexivity.
  - cbn [simplify]. rewrite diff_cons2. destruct (negb (forallb (Z.eqb (b - a)) (diff (b :: l))) || (b - a =? 0)) eqn:E.
    + left; reflexivity.
    + right. apply orb_false_elim in E as [E1 E2]. apply negb_false_iff in E1. apply Z.eqb_neq in E2.
      exists a, (b - a). left. split; [exact E2|]. split; [discriminate|].
      assert (forallb (Z.eqb (b - a)) (diff (a :: b :: l)) = true) as Hreg.
      { rewrite diff_cons2. cbn [forallb]. rewrite Z.eqb_refl, E1. reflexivity. }
      assert (forall k x, elem (a :: b :: l) k x <-> 0 <= k < zlen (a :: b :: l) /\ x = a + k * (b - a)) as HE.
      { intros k x. split.
        - intros H. split; [eapply elem_lt, H|]. exact (regular_elem _ _ _ Hreg _ _ H).
        - intros [Hk ->]. destruct (elem_ex _ _ Hk) as [y Hy].
          pose proof (regular_elem _ _ _ Hreg _ _ Hy). subst y. exact Hy. }
      split; [exact HE|].
      pose proof (last_elem (b :: l) a) as HL. pose proof (proj1 (HE _ _) HL) as [_ HL'].
      rewrite HL'. cbn [hd]. rewrite (zlen_cons a).
      replace (a + zlen (b :: l) * (b - a) + (b - a)) with (a + (zlen (b :: l) + 1) * (b - a)) by lia.
      reflexivity.
Qed.

Lemma in_range_elem n l k x : in_range n l -> elem l k x -> 0 <= x < n.
Proof. intros H E. apply (proj1 (Forall_forall _ _) H), (elem_In _ _ _ E). Qed.

Lemma simplify_selects ind n : in_range n ind -> np_selects (simplify ind) n ind.
Proof.
  intros Hr. destruct (simplify_cases ind) as [->|(a & d & [(Hd & Hne & HE & ->)|(i & -> & ->)])].
  - reflexivity.
  - cbn [np_selects]. unfold selects, eff_start, eff_stop, eff_step. cbn [s_start s_stop s_step]. split; [exact Hd|].
    pose proof (zlen_nonneg ind) as Hl0.
    assert (0 < zlen ind) as Hl by (destruct ind; [congruence|rewrite zlen_cons; pose proof (zlen_nonneg ind); lia]).
    assert (elem ind 0 a) as Ha by (apply HE; split; lia).
    assert (elem ind (zlen ind - 1) (a + (zlen ind - 1) * d)) as Hb by (apply HE; split; lia).
    pose proof (in_range_elem _ _ _ _ Hr Ha). pose proof (in_range_elem _ _ _ _ Hr Hb).
    set (N := zlen ind) in *.
    intros k x. rewrite HE. unfold from_end, limit.
    destruct (Z.ltb_spec a 0); [lia|].
    assert ((a + N * d <? 0) = true -> d < 0) as Hneg by (intros E%Z.ltb_lt; nia).
    destruct (a + N * d <? 0) eqn:E; cbn [s_stop].
    + specialize (Hneg eq_refl). destruct (Z.ltb_spec 0 d); [lia|]. apply Z.ltb_lt in E.
      replace (Z.max (-1) (Z.min (n - 1) a)) with a by lia.
      split; [intros [Hk ->]; repeat split; try lia; intros; nia|].
      intros (Hk & -> & _ & Hx). split; [|reflexivity]. specialize (Hx Hneg). nia.
    + apply Z.ltb_ge in E. destruct (Z.ltb_spec (a + N * d) 0); [lia|].
      destruct (Z.ltb_spec 0 d).
      * replace (Z.max 0 (Z.min n a)) with a by lia.
        split.
        -- intros [Hk ->]. split; [lia|]. split; [lia|]. split; [|lia]. intros _. assert (a + k * d <= a + (N - 1) * d) by nia. nia.
        -- intros (Hk & -> & Hx & _). split; [|reflexivity]. split; [lia|]. assert (a + k * d < a + N * d) by lia. nia.
      * replace (Z.max (-1) (Z.min (n - 1) a)) with a by lia.
        split.
        -- intros [Hk ->]. split; [lia|]. split; [lia|]. split; [lia|]. intros _. assert (a + k * d >= a + (N - 1) * d) by nia. nia.
        -- intros (Hk & -> & _ & Hx). split; [|reflexivity]. split; [lia|].
           assert (Z.max (-1) (Z.min (n - 1) (a + N * d)) = a + N * d) as HH by nia. rewrite HH in Hx. nia.
  - cbn [np_selects]. unfold selects, eff_start, eff_stop, eff_step. cbn [s_start s_stop s_step]. split; [lia|].
    pose proof (in_range_elem n [i] 0 i Hr (proj2 (elem_0 _ _ _) eq_refl)).
    intros k x. unfold from_end, limit. cbn. destruct (Z.ltb_spec i 0); [lia|]. destruct (Z.ltb_spec (i + 1) 0); [lia|].
    rewrite elem_cons. split.
    + intros [[-> ->]|[_ F]]; [repeat split; lia|now apply elem_nil in F].
    + intros (Hk & -> & Hx & _). left. lia.
Qed.

Lemma selects_fun s n l l' : selects s n l -> selects s n l' -> l = l'.
Proof. intros [_ H] [_ H']. apply list_ext. intros k x. rewrite H, H'. reflexivity. Qed.

Lemma np_selects_fun s n l l' : np_selects s n l -> np_selects s n l' -> l = l'.
Proof. destruct s; simpl; [apply selects_fun| |]; congruence. Qed.

Lemma expand_simplify ind m : Forall (fun i => 0 <= i) ind -> expand (simplify ind) m = Some ind.
Proof.
  intros Hr. destruct (simplify_cases ind) as [->|(a & d & [(Hd & Hne & HE & ->)|(i & -> & ->)])].
  - reflexivity.
  - cbn [expand]. destruct (Z.eqb_spec d 0); [contradiction|]. f_equal. apply list_ext. intros k x. rewrite HE, elem_arange by assumption.
    pose proof (zlen_nonneg ind) as Hl0.
    assert (0 < zlen ind) as Hl by (destruct ind; [congruence|rewrite zlen_cons; pose proof (zlen_nonneg ind); lia]).
    assert (elem ind 0 a) as Ha by (apply HE; split; lia).
    assert (elem ind (zlen ind - 1) (a + (zlen ind - 1) * d)) as Hb by (apply HE; split; lia).
    apply elem_In in Ha, Hb. pose proof (proj1 (Forall_forall _ _) Hr _ Ha). pose proof (proj1 (Forall_forall _ _) Hr _ Hb).
    set (N := zlen ind) in *. cbn beta in *. destruct (Z.ltb_spec a 0); [lia|].
    destruct (Z.ltb_spec (a + N * d) 0).
    + assert (d < 0) by nia. destruct (Z.ltb_spec 0 d); [lia|].
      split; [intros (Hk & -> & _ & Hx); split; [|reflexivity]; specialize (Hx ltac:(lia)); nia|].
      intros [Hk ->]. split; [lia|]. split; [lia|]. split; [lia|]. intros. nia.
    + destruct (Z.ltb_spec (a + N * d) 0); [lia|].
      split.
      * intros (Hk & -> & Hp & Hm). split; [|reflexivity]. split; [lia|].
        destruct (Z_lt_le_dec 0 d) as [H9|H9]; [specialize (Hp H9); nia|specialize (Hm ltac:(lia)); nia].
      * intros [Hk ->]. split; [lia|]. split; [lia|]. split; intros; nia.
  - cbn [expand]. inversion Hr; subst. replace (1 =? 0) with false by reflexivity.
    destruct (Z.ltb_spec i 0); [lia|]. destruct (Z.ltb_spec (i + 1) 0); [lia|].
    f_equal. apply list_ext. intros k x. rewrite elem_arange by lia. rewrite elem_cons. split.
    + intros (Hk & -> & Hx & _). left. lia.
    + intros [[-> ->]|[_ F]]; [repeat split; lia|now apply elem_nil in F].
Qed.

Lemma selects_ext l l' s n : l' = l -> selects s n l -> selects s n l'.
Proof. intros ->. auto. Qed.
