(** Interpolation: the C code. *)
From Coq Require Import ZArith List Bool Lia QArith_base Qcanon Sorting.Sorted.
From Verif Require Import SortSpec IndexModel IndexSpec IndexProofs ArrModel ArrProofs ViewModel ViewSpec ViewProofs ChunkProofs AxisModel AxisSpec VarOpsModel VarOpsSpec ReduceModel ReduceSpec NumModel
     StencilModel StencilSpec StencilLemmas IntgrProofs ConcatProofs SmoothModel SmoothSpec InterpModel InterpSpec.
Import ListNotations.
Open Scope Z_scope.

(** *** numbers *)
Lemma qc_ltb_spec p q : qc_ltb p q = true <-> (p < q)%Qc.
Proof. unfold qc_ltb. rewrite Qclt_alt. destruct (p ?= q)%Qc; split; intros H; congruence. Qed.
Lemma qc_ltb_false p q : qc_ltb p q = false <-> (q <= p)%Qc.
Proof.
  destruct (qc_ltb p q) eqn:E; split; intros H; try congruence.
  - apply qc_ltb_spec in E. exfalso. exact (Qclt_not_le _ _ E H).
  - apply Qcnot_lt_le. intros H'. apply qc_ltb_spec in H'. congruence.
Qed.
Lemma is_fin_sub a b : is_fin (sub b a) = true -> exists p q, a = Fin p /\ b = Fin q.
Proof. destruct a, b; cbn; intros H; try discriminate; eauto. Qed.

(** *** the order of the coordinates *)
Lemma first_step_finds nxin xin c : (nxin <= length xin)%nat -> (forall j, (j < nxin)%nat -> nth_error xin j = Some (c (Z.of_nat j))) ->
  forall fuel i i0 p q, (i <= i0)%nat -> (S i0 < nxin)%nat -> (nxin - i <= fuel)%nat -> c (Z.of_nat i0) = Fin p -> c (Z.of_nat (S i0)) = Fin q ->
  exists j p q, (S j < nxin)%nat /\ c (Z.of_nat j) = Fin p /\ c (Z.of_nat (S j)) = Fin q /\ first_step nxin xin fuel i = Some (Fin (q - p)%Qc).
Proof.
  intros Hl Hc. induction fuel as [|fuel IH]; intros i i0 p q Hi Hi0 Hf Hp Hq; [lia|].
  cbn [first_step]. unfold read. rewrite !Hc by lia. cbn [bind].
  destruct (is_fin (sub (c (Z.of_nat (S i))) (c (Z.of_nat i)))) eqn:E.
  - destruct (is_fin_sub _ _ E) as (a & b & Ea & Eb). rewrite Ea, Eb, sub_fin. exists i, a, b. repeat (split; [first [lia|assumption]|]). reflexivity.
  - destruct (Nat.ltb_spec (S i) nxin); [|lia]. destruct (Nat.eq_dec i i0) as [->|Hne].
    + rewrite Hp, Hq, sub_fin in E. discriminate.
    + apply (IH (S i) i0 p q); [lia|lia|lia|exact Hp|exact Hq].
Qed.

Definition step_of (nxin : nat) (xin : list num) : option num := if Nat.ltb 1 nxin then first_step nxin xin nxin 0 else Some (Fin 1%Qc).
Lemma order_found up nxin xin c : (nxin <= length xin)%nat -> (forall j, (j < nxin)%nat -> nth_error xin j = Some (c (Z.of_nat j))) ->
  monotone up (Z.of_nat nxin) c -> neighbours (Z.of_nat nxin) c ->
  exists dx, step_of nxin xin = Some dx /\ is_fin dx && (ltb dx zero || ltb zero dx) = true /\ ltb dx zero = if Nat.ltb 1 nxin then negb up else false.
Proof.
  intros Hl Hc Hm Hn. unfold step_of. destruct (Nat.ltb_spec 1 nxin) as [H1|H1].
  - destruct Hn as [Hn|(i & p & q & Hi & Hp & Hq)]; [lia|].
    destruct (first_step_finds nxin xin c Hl Hc nxin 0%nat (Z.to_nat i) p q) as (j & p' & q' & Hj & Hp' & Hq' & E); [lia|lia|lia|rewrite Z2Nat.id by lia; exact Hp| |].
    { replace (Z.of_nat (S (Z.to_nat i))) with (i + 1) by lia. exact Hq. }
    exists (Fin (q' - p')%Qc). split; [exact E|]. specialize (Hm (Z.of_nat j) (Z.of_nat (S j)) p' q' ltac:(lia) ltac:(lia) ltac:(lia) Hp' Hq').
    unfold zero. cbn [is_fin ltb andb]. destruct up.
    + assert (qc_ltb (Q2Qc 0) (q' - p')%Qc = true) as H by (apply qc_ltb_spec; now apply (proj1 (Qclt_minus_iff p' q'))).
      assert (qc_ltb (q' - p')%Qc (Q2Qc 0) = false) as H' by (apply qc_ltb_false, Qclt_le_weak, qc_ltb_spec, H). rewrite H, H'. split; reflexivity.
    + assert (qc_ltb (q' - p')%Qc (Q2Qc 0) = true) as H.
      { apply qc_ltb_spec. apply Qclt_minus_iff in Hm. apply Qclt_minus_iff. replace (Q2Qc 0 + - (q' - p'))%Qc with (p' + - q')%Qc; [exact Hm|]. change (Q2Qc 0) with 0%Qc. ring. }
      rewrite H. split; reflexivity.
  - exists (Fin 1%Qc). repeat split.
Qed.

(** *** the points *)
Definition rising (a b : Qc * Qc) : Prop := (fst a < fst b)%Qc.
Definition us (p : num * num) : bool := is_fin (snd p) && is_fin (fst p).
Definition to_point (x y : Z -> num) (j : Z) : list (Qc * Qc) := match x j, y j with Fin p, Fin v => [(p, v)] | _, _ => [] end.

Lemma sorted_nth {A} (R : A -> A -> Prop) l : StronglySorted R l -> forall i j a b, nth_error l i = Some a -> nth_error l j = Some b -> (i < j)%nat -> R a b.
Proof.
  induction 1 as [|x l H IH HF]; intros i j a b Hi Hj Hij; [destruct i; discriminate|].
  destruct j as [|j]; [lia|]. cbn in Hj. destruct i as [|i]; cbn in Hi.
  - injection Hi as <-. apply nth_error_In in Hj. exact (proj1 (Forall_forall _ _) HF b Hj).
  - apply (IH i j a b Hi Hj). lia.
Qed.
Lemma sorted_flat_map {A B} (R : A -> A -> Prop) (S : B -> B -> Prop) (f : A -> list B) l : StronglySorted R l ->
  (forall a, In a l -> StronglySorted S (f a)) -> (forall a b u v, In a l -> In b l -> R a b -> In u (f a) -> In v (f b) -> S u v) -> StronglySorted S (flat_map f l).
Proof.
  induction 1 as [|x l H IH HF]; intros H1 H2; cbn; [constructor|].
  assert (StronglySorted S (flat_map f l)) as Ht. { apply IH; [intros; apply H1; now right|]. intros a b u v Ha Hb. apply H2; now right. }
  assert (forall u v, In u (f x) -> In v (flat_map f l) -> S u v) as Hx.
  { intros u v Hu Hv. apply in_flat_map in Hv as (b & Hb & Hv). apply (H2 x b u v); [now left|now right| |exact Hu|exact Hv]. exact (proj1 (Forall_forall _ _) HF b Hb). }
  specialize (H1 x (or_introl eq_refl)). clear -H1 Ht Hx. induction H1 as [|u fu H1 IH HF]; cbn; [exact Ht|]. constructor.
  - apply IH. intros u' v Hu. apply Hx. now right.
  - apply Forall_forall. intros v Hv. apply in_app_or in Hv as [Hv|Hv]; [exact (proj1 (Forall_forall _ _) HF v Hv)|]. apply Hx; [now left|exact Hv].
Qed.
Lemma sorted_arange a b : StronglySorted Z.lt (arange a b 1).
Proof.
  assert (forall n a b, Z.of_nat n = b - a -> StronglySorted Z.lt (arange a b 1)) as H.
  { induction n as [|n IH]; intros a' b' E; [rewrite arange_none by lia; constructor|]. rewrite arange_cons by lia. constructor; [apply IH; lia|].
    apply Forall_forall. intros x Hx. apply In_arange1 in Hx. lia. }
  destruct (Z.le_gt_cases b a); [rewrite arange_none by lia; constructor|]. apply (H (Z.to_nat (b - a))). lia.
Qed.
Lemma sorted_snoc {A} (R : A -> A -> Prop) l x : StronglySorted R l -> (forall y, In y l -> R y x) -> StronglySorted R (l ++ [x]).
Proof.
  induction 1 as [|y l H IH HF]; intros Hx; cbn; [repeat constructor|]. constructor; [apply IH; intros z Hz; apply Hx; now right|].
  apply Forall_forall. intros z Hz. apply in_app_or in Hz as [Hz|[<-|[]]]; [exact (proj1 (Forall_forall _ _) HF z Hz)|apply Hx; now left].
Qed.
Lemma sorted_rev {A} (R : A -> A -> Prop) l : StronglySorted R l -> StronglySorted (fun a b => R b a) (rev l).
Proof.
  induction 1 as [|y l H IH HF]; cbn; [constructor|]. apply sorted_snoc; [exact IH|]. intros z Hz. apply in_rev in Hz. exact (proj1 (Forall_forall _ _) HF z Hz).
Qed.

Definition indices (back : bool) (n : Z) : list Z := if back then rev (arange 0 n 1) else arange 0 n 1.
Definition points_of (back : bool) (n : Z) (x y : Z -> num) : list (Qc * Qc) := flat_map (to_point x y) (indices back n).
Lemma in_indices back n j : In j (indices back n) <-> 0 <= j < n.
Proof. unfold indices. destruct back; [rewrite <- in_rev|]; apply In_arange1. Qed.
Lemma in_to_point x y j p v : In (p, v) (to_point x y j) <-> x j = Fin p /\ y j = Fin v.
Proof. unfold to_point. destruct (x j), (y j); cbn; split; intros H; try (destruct H; congruence); try (destruct H as [H|[]]; injection H as <- <-; auto). destruct H as [H1 H2]. injection H1 as <-. injection H2 as <-. now left. Qed.

Lemma points_sorted up back n x y : monotone up n x -> n <= 1 \/ back = negb up -> StronglySorted rising (points_of back n x y).
Proof.
  intros Hm Hb. unfold points_of.
  assert (forall j, StronglySorted rising (to_point x y j)) as H1 by (intros j; unfold to_point; destruct (x j), (y j); repeat constructor).
  destruct Hb as [Hn| ->].
  - assert (forall l, (length l <= 1)%nat -> StronglySorted rising (flat_map (to_point x y) l)) as H.
    { intros [|a [|b l]] Hl; cbn in Hl |- *; [constructor|rewrite app_nil_r; apply H1|lia]. }
    apply H. unfold indices. assert (length (arange 0 n 1) <= 1)%nat as Hl. { destruct (Z.le_gt_cases n 0); [rewrite arange_none by lia; apply Nat.le_0_l|]. assert (n = 1) as -> by lia. apply Nat.le_refl. }
    destruct back; [now rewrite rev_length|exact Hl].
  - destruct up; cbn [negb].
    + apply (sorted_flat_map Z.lt rising); [apply sorted_arange|intros; apply H1|]. intros a b [p v] [q w] Ha Hb Hab Hu Hv. apply In_arange1 in Ha, Hb. apply in_to_point in Hu as [Hu _], Hv as [Hv _].
      exact (Hm a b p q ltac:(lia) Hab ltac:(lia) Hu Hv).
    + apply (sorted_flat_map (fun a b => b < a) rising); [apply (sorted_rev Z.lt), sorted_arange|intros; apply H1|]. intros a b [p v] [q w] Ha Hb Hab Hu Hv.
      apply in_rev, In_arange1 in Ha, Hb. apply in_to_point in Hu as [Hu _], Hv as [Hv _].
      exact (Hm b a q p ltac:(lia) Hab ltac:(lia) Hv Hu).
Qed.
Lemma points_are up back n x y : monotone up n x -> n <= 1 \/ back = negb up -> the_points n x y (points_of back n x y).
Proof.
  intros Hm Hb. split.
  - intros p v. unfold points_of. rewrite in_flat_map. split.
    + intros (j & Hj & Hp). apply in_indices in Hj. apply in_to_point in Hp as [H1 H2]. exists j. repeat split; auto; lia.
    + intros (j & Hj & H1 & H2). exists j. split; [now apply in_indices|now apply in_to_point].
  - intros i j a b. apply (sorted_nth rising). now apply (points_sorted up).
Qed.

Lemma filter_points x y (js : list Z) : filter us (map (fun j => (x j, y j)) js) = fins2 (flat_map (to_point x y) js).
Proof.
  induction js as [|j js IH]; [reflexivity|]. cbn [map filter flat_map]. unfold us at 1, to_point at 1. cbn [fst snd].
  destruct (x j), (y j); cbn; rewrite IH; reflexivity.
Qed.

Lemma last_In {A} (l : list A) d : l <> [] -> In (last l d) l.
Proof. induction l as [|a l IH]; [congruence|]. intros _. destruct l as [|b l]; [now left|]. right. apply IH. discriminate. Qed.
Lemma sorted_app {A} (R : A -> A -> Prop) l1 l2 : StronglySorted R (l1 ++ l2) -> forall a b, In a l1 -> In b l2 -> R a b.
Proof.
  induction l1 as [|x l1 IH]; intros H a b Ha Hb; [destruct Ha|]. cbn in H. inversion H as [|? ? H1 H2]; subst. destruct Ha as [<-|Ha]; [|now apply IH].
  apply (proj1 (Forall_forall _ _) H2). apply in_or_app. now right.
Qed.
Lemma collect_all omit pts P : filter us pts = fins2 P -> StronglySorted rising P -> collect omit pts = fins2 P.
Proof.
  intros HP HS. unfold collect. change (fins2 P) with (fins2 [] ++ fins2 P).
  assert (forall pts P acc, filter us pts = fins2 P -> StronglySorted rising (acc ++ P) ->
    fold_left (fun acc '(x, y) => if is_fin y && is_fin x then if omit && (0 <? zlen acc) && ltb x (fst (last acc (NaN, NaN))) then acc else acc ++ [(x, y)] else acc) pts (fins2 acc) = fins2 acc ++ fins2 P) as H.
  { clear. induction pts as [|[x y] pts IH]; intros P acc HP HS.
    - cbn in HP |- *. rewrite <- HP. now rewrite app_nil_r.
    - cbn [filter] in HP. cbn [fold_left]. change (is_fin y && is_fin x) with (us (x, y)). destruct (us (x, y)) eqn:E.
      + destruct P as [|[p v] P]; [discriminate|]. cbn in HP. injection HP as -> -> HP.
        assert (omit && (0 <? zlen (fins2 acc)) && ltb (Fin p) (fst (last (fins2 acc) (NaN, NaN))) = false) as ->.
        { destruct omit; [|reflexivity]. destruct (Z.ltb_spec 0 (zlen (fins2 acc))) as [Hl|Hl]; [|reflexivity]. cbn [andb].
          assert (fins2 acc <> []) as Hne by (intros E'; rewrite E' in Hl; unfold zlen in Hl; cbn in Hl; lia).
          pose proof (last_In (fins2 acc) (NaN, NaN) Hne) as Hin. apply in_map_iff in Hin as ([q w] & <- & Hin). cbn [fst ltb].
          apply qc_ltb_false, Qclt_le_weak. pose proof (sorted_app rising acc ((p, v) :: P) HS (q, w) (p, v) Hin (or_introl eq_refl)) as K. exact K. }
        replace (fins2 acc ++ [(Fin p, Fin v)]) with (fins2 (acc ++ [(p, v)])) by (unfold fins2; now rewrite map_app).
        rewrite (IH P (acc ++ [(p, v)]) HP) by (now rewrite <- app_assoc). unfold fins2. rewrite map_app, <- app_assoc. reflexivity.
      + apply (IH P acc HP HS). }
  apply (H pts P []); [exact HP|exact HS].
Qed.

(** *** one array *)
Lemma one_array_spec g below above P : accepts g -> StronglySorted rising P ->
  exists f, (forall ts, one_array g below above (fins2 P) ts = Some (map f ts)) /\ forall t, by_library g below above P t (f t).
Proof.
  intros [Hg1 Hg] HP. unfold one_array, by_library. assert (zlen (fins2 P) = zlen P) as -> by (unfold zlen, fins2; now rewrite map_length).
  destruct (Z.ltb_spec (zlen P) (min_size g)) as [Hl|Hl].
  - exists (fun _ => NaN). split; reflexivity.
  - rewrite (Hg P); [|intros i j a b; apply (sorted_nth rising), HP|exact Hl]. eexists. split; [reflexivity|]. cbv beta.
    intros t p v p' v' Hp Hp'.
    assert (hd (NaN, NaN) (fins2 P) = (Fin p, Fin v)) as ->. { destruct P; [discriminate|]. cbn in Hp. injection Hp as ->. reflexivity. }
    assert (last (fins2 P) (NaN, NaN) = (Fin p', Fin v')) as Hlast.
    { destruct (exists_last (l := P)) as (P' & z & ->); [intros ->; discriminate|]. rewrite app_length in Hp'. cbn [length] in Hp'. rewrite nth_error_app2 in Hp' by lia.
      replace (length P' + 1 - 1 - length P')%nat with 0%nat in Hp' by lia. cbn in Hp'. injection Hp' as ->. unfold fins2. rewrite map_app. cbn. apply last_last. }
    cbn [fst]. rewrite Hlast. cbn [fst].
    assert ((p <= p')%Qc) as Hpp.
    { destruct P as [|z P]; [discriminate|]. destruct (Nat.eq_dec (length (z :: P) - 1) 0) as [E|E]; [rewrite E in Hp'; rewrite Hp in Hp'; injection Hp' as -> ->; apply Qcle_refl|].
      apply Qclt_le_weak. exact (sorted_nth rising _ HP 0%nat _ (p, v) (p', v') Hp Hp' ltac:(lia)). }
    assert (hd (NaN, NaN) (fins2 P) = (Fin p, Fin v)) as Hhd. { destruct P; [discriminate|]. cbn in Hp. injection Hp as ->. reflexivity. }
    unfold gsl_eval. rewrite Hlast, Hhd. cbn [fst ltb].
    rewrite (proj2 (qc_ltb_false p p) (Qcle_refl p)), (proj2 (qc_ltb_false p' p) Hpp), (proj2 (qc_ltb_false p' p') (Qcle_refl p')). cbn [orb].
    split; [|split].
    + intros ->. reflexivity.
    + intros H. rewrite H. destruct (ltb t (Fin p)) eqn:E; [|reflexivity]. exfalso. destruct t; cbn in E, H; try discriminate. apply qc_ltb_spec in E, H.
      exact (Qclt_not_le _ _ (Qclt_trans _ _ _ E (Qcle_lt_trans _ _ _ Hpp H)) (Qcle_refl _)).
    + intros -> ->. reflexivity.
Qed.

Definition row_value (g : gsl) (below above : num) (P : list (Qc * Qc)) (t : num) : num :=
  match one_array g below above (fins2 P) [t] with Some (w :: _) => w | _ => NaN end.
Lemma row_value_spec g below above P : accepts g -> StronglySorted rising P ->
  (forall ts, one_array g below above (fins2 P) ts = Some (map (row_value g below above P) ts)) /\ forall t, by_library g below above P t (row_value g below above P t).
Proof.
  intros Hg HP. destruct (one_array_spec g below above P Hg HP) as (f & H1 & H2).
  assert (forall t, row_value g below above P t = f t) as Hf by (intros t; unfold row_value; rewrite H1; reflexivity).
  split; [|intros t; rewrite Hf; apply H2]. intros ts. rewrite H1. f_equal. apply map_ext. intros t. now rewrite Hf.
Qed.

(** *** the loop *)
Lemma block_app n (l r : list num) : length l = n -> block n (l ++ r) = Some l.
Proof. intros <-. unfold block. rewrite app_length. destruct (Nat.leb_spec (length l) (length l + length r)); [|lia]. f_equal. rewrite firstn_app, firstn_all, Nat.sub_diag. cbn. apply app_nil_r. Qed.
Lemma skipn_app' {A} n (l r : list A) : length l = n -> skipn n (l ++ r) = r.
Proof. intros <-. rewrite skipn_app, skipn_all, Nat.sub_diag. reflexivity. Qed.

Lemma arrays_spec {A} g below above omit lx lo back nxin nxout (xrow yrow trow orow : A -> list num) (X0 T0 : list num) : forall ps,
  (forall p, In p ps -> length (xrow p) = nxin /\ length (yrow p) = nxin /\ length (trow p) = nxout) ->
  (lx = false -> forall p, In p ps -> xrow p = X0) -> (lo = false -> forall p, In p ps -> trow p = T0) ->
  (forall p, In p ps -> one_array g below above (collect omit (if back : bool then rev (combine (xrow p) (yrow p)) else combine (xrow p) (yrow p))) (trow p) = Some (orow p)) ->
  arrays g below above omit lx lo back (length ps) nxin nxout (if lx : bool then flat_map xrow ps else X0) (flat_map yrow ps) (if lo : bool then flat_map trow ps else T0) = Some (flat_map orow ps).
Proof.
  induction ps as [|p ps IH]; intros Hlen HX HT Ho; [reflexivity|]. cbn [length arrays].
  destruct (Hlen p (or_introl eq_refl)) as (L1 & L2 & L3).
  assert (block nxin (if lx then flat_map xrow (p :: ps) else X0) = Some (xrow p)) as ->.
  { destruct lx; [now apply block_app|]. rewrite <- (HX eq_refl p (or_introl eq_refl)). rewrite <- (app_nil_r (xrow p)) at 1. now apply block_app. }
  assert (block nxin (flat_map yrow (p :: ps)) = Some (yrow p)) as -> by (now apply block_app).
  assert (block nxout (if lo then flat_map trow (p :: ps) else T0) = Some (trow p)) as ->.
  { destruct lo; [now apply block_app|]. rewrite <- (HT eq_refl p (or_introl eq_refl)). rewrite <- (app_nil_r (trow p)) at 1. now apply block_app. }
  cbn [bind]. cbv zeta. rewrite (Ho p (or_introl eq_refl)). cbn [bind].
  assert ((if lx then skipn nxin (if lx then flat_map xrow (p :: ps) else X0) else if lx then flat_map xrow (p :: ps) else X0) = if lx then flat_map xrow ps else X0) as ->.
  { destruct lx; [|reflexivity]. cbn [flat_map]. now apply skipn_app'. }
  assert ((if lo then skipn nxout (if lo then flat_map trow (p :: ps) else T0) else if lo then flat_map trow (p :: ps) else T0) = if lo then flat_map trow ps else T0) as ->.
  { destruct lo; [|reflexivity]. cbn [flat_map]. now apply skipn_app'. }
  cbn [flat_map]. rewrite skipn_app' by exact L2. rewrite IH; [reflexivity| | | |].
  - intros q Hq. apply Hlen. now right.
  - intros H q Hq. apply (HX H). now right.
  - intros H q Hq. apply (HT H). now right.
  - intros q Hq. apply Ho. now right.
Qed.

(** *** elements in order *)
Lemma product_snoc {A} (ls : list (list A)) l : product (ls ++ [l]) = flat_map (fun p => map (fun k => p ++ [k]) l) (product ls).
Proof.
  induction ls as [|m ls IH]; cbn.
  - rewrite app_nil_r. induction l as [|x l IHl]; [reflexivity|]. cbn. now rewrite IHl.
  - rewrite IH. clear IH. generalize (product ls). intros P. induction m as [|x m IHm]; [reflexivity|]. cbn [flat_map]. rewrite flat_map_app, IHm. f_equal. clear.
    induction P as [|p P IHP]; [reflexivity|]. cbn. rewrite map_app, IHP, map_map. reflexivity.
Qed.
Lemma nth_flat_map {A B} (f : A -> list B) m l : (forall a, In a l -> length (f a) = m) -> forall i a j b, nth_error l i = Some a -> nth_error (f a) j = Some b -> nth_error (flat_map f l) (i * m + j) = Some b.
Proof.
  induction l as [|x l IH]; intros Hm i a j b Hi Hj; [destruct i; discriminate|]. cbn [flat_map]. pose proof (Hm x (or_introl eq_refl)) as Hx. destruct i as [|i]; cbn in Hi.
  - injection Hi as ->. cbn. rewrite nth_error_app1; [exact Hj|]. apply nth_error_Some. congruence.
  - rewrite nth_error_app2 by (cbn; lia). replace (S i * m + j - length (f x))%nat with (i * m + j)%nat by (cbn; lia). apply (IH ltac:(intros; apply Hm; now right) i a j b Hi Hj).
Qed.
Lemma product_length s : Forall (fun n => 0 <= n) s -> Z.of_nat (length (product (map (fun n => arange 0 n 1) s))) = prod s.
Proof.
  induction 1 as [|n s Hn H IH]; [reflexivity|]. cbn [map product]. change (prod (n :: s)) with (n * prod s). rewrite <- IH.
  assert (forall l : list Z, length (flat_map (fun x => map (cons x) (product (map (fun n => arange 0 n 1) s))) l) = (length l * length (product (map (fun n => arange 0 n 1) s)))%nat) as ->.
  { induction l as [|x l IHl]; [reflexivity|]. cbn. rewrite app_length, map_length, IHl. reflexivity. }
  rewrite Nat2Z.inj_mul. f_equal. pose proof (LoopProofs.zlen_arange1 0 n Hn) as K. unfold zlen in K. lia.
Qed.
Lemma product_ravel s : forall p, position s p -> nth_error (product (map (fun n => arange 0 n 1) s)) (Z.to_nat (ravel s p)) = Some p.
Proof.
  induction s as [|n s IH]; intros p Hp; inversion Hp as [|? x ? p' Hx Hp']; subst; [reflexivity|]. cbn [map product].
  assert (Forall (fun n => 0 <= n) s) as Hs. { clear -Hp'. induction Hp'; constructor; [lia|assumption]. }
  pose proof (product_length s Hs) as Hl. pose proof (ravel_bound s p' Hp') as Hb. cbn [ravel].
  replace (Z.to_nat (x * prod s + ravel s p')) with (Z.to_nat x * length (product (map (fun n0 => arange 0 n0 1) s)) + Z.to_nat (ravel s p'))%nat.
  2:{ rewrite Z2Nat.inj_add, Z2Nat.inj_mul by lia. rewrite <- Hl at 1. rewrite Nat2Z.id. reflexivity. }
  apply (nth_flat_map _ _ _ ltac:(intros; apply map_length) (Z.to_nat x) x).
  - assert (elem (arange 0 n 1) x x) as [_ K] by (apply elem_arange1; lia). exact K.
  - rewrite nth_error_map, (IH p' Hp'). reflexivity.
Qed.
