(** Proofs for C31. *)
From Coq Require Import ZArith List Bool Lia QArith_base Qabs Qminmax String Ascii.
From Verif Require Import SortSpec IndexModel IndexSpec IndexProofs ArrModel ArrProofs ViewModel ViewSpec ViewProofs AxisModel AxisSpec AxisProofs VarOpsModel VarOpsSpec VarOpsProofs VarOpsLemmas LoopProofs StencilModel StencilProofs IntgrProofs SelectModel SelectSpec.
Import ListNotations.
Open Scope Z_scope.

(** *** strings *)
Lemma has_letter_spec c s : has_letter c s = true <-> letter c s.
Proof.
  induction s as [|d s IH]; cbn [has_letter].
  - split; [discriminate|]. intros (t & u & E). destruct t; discriminate.
  - rewrite orb_true_iff, IH. split.
    + intros [E|(t & u & ->)]; [apply Ascii.eqb_eq in E; subst; exists EmptyString, s; reflexivity|]. exists (String d t), u. reflexivity.
    + intros (t & u & E). destruct t as [|e t]; cbn in E; injection E as -> ->; [left; apply Ascii.eqb_refl|right; exists t, u; reflexivity].
Qed.
Lemma no_letter c s : has_letter c s = false <-> ~ letter c s.
Proof. rewrite <- has_letter_spec. destruct (has_letter c s); split; congruence. Qed.
Lemma letter_cases c s : letter c s \/ ~ letter c s.
Proof. rewrite <- has_letter_spec. destruct (has_letter c s); [now left|right; discriminate]. Qed.
Lemma split_key_some k p r : split_key k = Some (p, r) <-> k = append p (String underscore r) /\ ~ letter underscore p.
Proof.
  revert p r. induction k as [|c k IH]; intros p r; cbn [split_key].
  - split; [discriminate|]. intros [E _]. destruct p; discriminate.
  - destruct (Ascii.eqb_spec c underscore) as [->|Hne].
    + split.
      * intros E. injection E as <- <-. split; [reflexivity|]. intros (t & u & E). destruct t; discriminate.
      * intros [E Hn]. destruct p as [|d p]; cbn in E; [injection E as E2; now subst|injection E as E1 E2]. exfalso. apply Hn. exists EmptyString, p. now rewrite <- E1.
    + split.
      * destruct (split_key k) as [[p' r']|] eqn:E; [|discriminate]. intros H. injection H as <- <-. destruct (proj1 (IH p' r') eq_refl) as [Ek Hn]. split; [now rewrite Ek|].
        intros Hl. apply has_letter_spec in Hl. cbn [has_letter] in Hl. apply orb_true_iff in Hl as [Hl|Hl]; [apply Ascii.eqb_eq in Hl; congruence|]. apply has_letter_spec in Hl. contradiction.
      * intros [E Hn]. destruct p as [|d p]; cbn in E; injection E as E1 E2; [congruence|]. subst d.
        assert (split_key k = Some (p, r)) as ->; [|reflexivity]. apply IH. split; [exact E2|]. intros Hl. apply Hn. apply has_letter_spec. cbn [has_letter]. apply orb_true_iff. right. now apply has_letter_spec.
Qed.
Lemma split_key_none k : split_key k = None <-> ~ letter underscore k.
Proof.
  rewrite <- no_letter. induction k as [|c k IH]; cbn [split_key has_letter]; [split; reflexivity|].
  rewrite (Ascii.eqb_sym underscore). destruct (Ascii.eqb c underscore); cbn [orb]; [split; discriminate|]. rewrite <- IH. destruct (split_key k) as [[p r]|]; split; congruence.
Qed.
Lemma parse_named N a k p ax : parse N a k = (p, ax) <-> named N a k p ax.
Proof.
  unfold parse, named. destruct (alias N a k) eqn:Ea.
  - split; [intros E; injection E as <- <-; auto|]. intros [(-> & -> & _)|(E & _)]; [reflexivity|discriminate].
  - destruct (split_key k) as [[p' r']|] eqn:E.
    + split.
      * intros H. injection H as -> ->. right. apply split_key_some in E. tauto.
      * intros [(_ & _ & [H|H])|(_ & H)]; [discriminate|apply split_key_none in H; congruence|]. apply split_key_some in H. congruence.
    + split.
      * intros H. injection H as <- <-. left. apply split_key_none in E. auto.
      * intros [(-> & -> & _)|(_ & H)]; [reflexivity|]. apply split_key_some in H. congruence.
Qed.

(** *** masks *)
Definition masks (n : Z) (kp : list bool) (P : Z -> Prop) : Prop :=
  zlen kp = n /\ forall i, 0 <= i < n -> (nth (Z.to_nat i) kp false = true <-> P i).
Lemma masks_ext n kp P Q : masks n kp P -> (forall i, 0 <= i < n -> (P i <-> Q i)) -> masks n kp Q.
Proof. intros [H1 H2] E. split; [exact H1|]. intros i Hi. rewrite (H2 i Hi). now apply E. Qed.
Lemma nth_map_arange (f : Z -> bool) n i : 0 <= i < n -> nth (Z.to_nat i) (map f (arange 0 n 1)) false = f i.
Proof.
  intros Hi. assert (nth_error (map f (arange 0 n 1)) (Z.to_nat i) = Some (f i)) as E; [|now apply nth_error_nth].
  rewrite nth_error_map. assert (elem (arange 0 n 1) i i) as [_ ->] by (apply elem_arange01; lia). reflexivity.
Qed.
Lemma mark_masks n ind : 0 <= n -> masks n (mark n ind) (fun i => In i ind).
Proof.
  intros Hn. split; [unfold mark; rewrite zlen_map, zlen_arange1; lia|]. intros i Hi. unfold mark. rewrite (nth_map_arange (fun i => existsb (Z.eqb i) ind)) by exact Hi.
  rewrite existsb_exists. split; [intros (x & Hx & E); apply Z.eqb_eq in E; now subst|]. intros H. exists i. split; [exact H|apply Z.eqb_refl].
Qed.
Lemma all_masks n : 0 <= n -> masks n (map (fun _ => true) (arange 0 n 1)) (fun _ => True).
Proof.
  intros Hn. split; [rewrite zlen_map, zlen_arange1; lia|]. intros i Hi. rewrite (nth_map_arange (fun _ => true)) by exact Hi. tauto.
Qed.
Lemma negb_masks n kp P : masks n kp P -> masks n (map negb kp) (fun i => ~ P i).
Proof.
  intros [H1 H2]. split; [now rewrite zlen_map|]. intros i Hi. rewrite <- (H2 i Hi). change false with (negb true) at 1. rewrite map_nth.
  assert (nth (Z.to_nat i) kp true = nth (Z.to_nat i) kp false) as -> by (apply nth_indep; unfold zlen in H1; lia).
  destruct (nth (Z.to_nat i) kp false); cbn; split; congruence.
Qed.
Lemma and_masks n kp kp' P Q : masks n kp P -> masks n kp' Q -> masks n (map (fun '(x, y) => x && y) (combine kp kp')) (fun i => P i /\ Q i).
Proof.
  intros [H1 H2] [H3 H4]. unfold zlen in *. split; [unfold zlen; rewrite map_length, combine_length; lia|]. intros i Hi. rewrite <- (H2 i Hi), <- (H4 i Hi).
  change false with ((fun '(x, y) => x && y) (false, false)) at 1. rewrite map_nth, combine_nth by lia. rewrite andb_true_iff. reflexivity.
Qed.
Lemma flatnonzero_spec n kp P : masks n kp P -> increasing (flatnonzero kp) /\ in_range n (flatnonzero kp) /\ forall i, In i (flatnonzero kp) <-> 0 <= i < n /\ P i.
Proof.
  intros [H1 H2]. unfold flatnonzero. rewrite H1.
  assert (forall i, In i (map fst (filter snd (combine (arange 0 n 1) kp))) <-> 0 <= i < n /\ P i) as HI.
  { intros i. rewrite in_map_iff. split.
    - intros ([j b] & E & Hf). cbn in E. subst j. apply filter_In in Hf as [Hf Hb]. cbn in Hb. subst b. apply In_nth_error in Hf as (m & Hm). rewrite nth_error_combine in Hm.
      destruct (nth_error (arange 0 n 1) m) as [j|] eqn:Ej; [|discriminate]. destruct (nth_error kp m) as [b|] eqn:Eb; [|discriminate]. injection Hm as -> ->.
      assert (elem (arange 0 n 1) (Z.of_nat m) i) as He by (split; [lia|now rewrite Nat2Z.id]). apply elem_arange01 in He as [E Hi]. split; [lia|]. apply H2; [lia|].
      replace (Z.to_nat i) with m by lia. now apply nth_error_nth.
    - intros [Hi HP]. exists (i, true). split; [reflexivity|]. apply filter_In. split; [|reflexivity]. apply H2 in HP; [|exact Hi].
      apply (nth_error_In _ (Z.to_nat i)). rewrite nth_error_combine. assert (elem (arange 0 n 1) i i) as [_ ->] by (apply elem_arange01; lia).
      unfold zlen in H1. rewrite (nth_error_nth' kp false) by lia. now rewrite HP. }
  split; [|split; [apply Forall_forall; intros i Hi; now apply HI|exact HI]].
  clear. generalize 0 as s. intros s. unfold arange. cbn [Z.ltb Z.compare]. rewrite Z.div_1_r.
  assert (forall m k kp, sorted (map fst (filter snd (combine (map (fun j => s + Z.of_nat j * 1) (seq k m)) kp))) /\ forall x, In x (map fst (filter snd (combine (map (fun j => s + Z.of_nat j * 1) (seq k m)) kp))) -> s + Z.of_nat k <= x) as K.
  { induction m as [|m IH]; intros k kp0; cbn [seq map combine filter]; [split; [constructor|intros x []]|]. destruct kp0 as [|b kp0]; cbn [combine filter map]; [split; [constructor|intros x []]|].
    destruct (IH (S k) kp0) as [IH1 IH2]. destruct b; cbn [snd map fst].
    - split; [|intros x [<-|Hx]; [lia|apply IH2 in Hx; lia]]. constructor; [|exact IH1]. intros x Hx. apply IH2 in Hx. lia.
    - split; [exact IH1|]. intros x Hx. apply IH2 in Hx. lia. }
  apply sorted_increasing, K.
Qed.

(** *** the closest value *)
Definition first_least (l : list Q) (i : Z) : Prop := exists w, elem l i w /\ forall j u, elem l j u -> (w <= u)%Q /\ (j < i -> (w < u)%Q).
Lemma argmin_from_spec t : forall pre best d, elem pre best d -> (forall j u, elem pre j u -> (d <= u)%Q /\ (j < best -> (d < u)%Q)) ->
  first_least (pre ++ t) (argmin_from (zlen pre) best d t).
Proof.
  induction t as [|x t IH]; intros pre best d Hb Hm; cbn [argmin_from].
  - rewrite app_nil_r. exists d. auto.
  - replace (pre ++ x :: t) with ((pre ++ [x]) ++ t) by (rewrite <- app_assoc; reflexivity).
    assert (zlen pre + 1 = zlen (pre ++ [x])) as -> by (unfold zlen; rewrite app_length; cbn; lia).
    pose proof (elem_lt _ _ _ Hb) as Hlt.
    destruct (Qle_bool d x) eqn:E; cbn [negb].
    + apply Qle_bool_iff in E. apply IH; [apply elem_app; now left|]. intros j u Hj. apply elem_app in Hj as [Hj|[Hz Hj]]; [now apply Hm|].
      apply elem_cons in Hj as [[Ej ->]|[_ Hj]]; [split; [exact E|intros; lia]|now apply elem_nil in Hj].
    + assert (x < d)%Q as Hx. { apply Qnot_le_lt. intros K. apply Qle_bool_iff in K. congruence. }
      apply IH; [apply elem_app; right; split; [lia|]; replace (zlen pre - zlen pre) with 0 by lia; apply elem_cons; now left|].
      intros j u Hj. apply elem_app in Hj as [Hj|[Hz Hj]].
      * destruct (Hm _ _ Hj) as [K _]. pose proof (Qlt_le_trans _ _ _ Hx K). split; [now apply Qlt_le_weak|auto].
      * apply elem_cons in Hj as [[Ej ->]|[_ Hj]]; [split; [apply Qle_refl|intros; lia]|now apply elem_nil in Hj].
Qed.
Lemma argmin_spec l i : argmin l = Some i -> first_least l i.
Proof.
  destruct l as [|x t]; [discriminate|]. cbn [argmin]. intros E. injection E as <-. apply (argmin_from_spec t [x] 0 x).
  - apply elem_cons. now left.
  - intros j u Hj. apply elem_cons in Hj as [[-> ->]|[_ Hj]]; [split; [apply Qle_refl|lia]|now apply elem_nil in Hj].
Qed.
Lemma first_least_unique l i i' : first_least l i -> first_least l i' -> i = i'.
Proof.
  intros (w & H1 & H2) (w' & H3 & H4). destruct (Z.lt_trichotomy i i') as [H|[H|H]]; [|exact H|]; exfalso.
  - destruct (H4 _ _ H1) as [_ K]. specialize (K H). destruct (H2 _ _ H3) as [K' _]. apply (Qlt_not_le _ _ K), K'.
  - destruct (H2 _ _ H3) as [_ K]. specialize (K H). destruct (H4 _ _ H1) as [K' _]. apply (Qlt_not_le _ _ K), K'.
Qed.
Lemma nearest_least vals q i : first_least (map (fun w => Qabs (q - w)) vals) i <-> nearest vals q i.
Proof.
  unfold first_least, nearest. split.
  - intros (d & Hd & Hm). apply elem_map in Hd as (w & Hw & Ed). exists w. split; [exact Hw|]. intros j u Hj. subst d. apply Hm. apply elem_map. eauto.
  - intros (w & Hw & Hm). exists (Qabs (q - w)). split; [apply elem_map; eauto|]. intros j d Hj. apply elem_map in Hj as (u & Hu & ->). now apply Hm.
Qed.

(** *** numpy's index arrays *)
Lemma np_index_selects s n l : np_index (SSlice s) n = Some l -> selects s n l.
Proof. intros H. exact (slice_index_spec (fun _ : list Z => tt) (SSlice s) n l H). Qed.
Lemma selects_unique s n l l' : selects s n l -> selects s n l' -> l = l'.
Proof. intros [_ H] [_ H']. apply list_ext. intros k x. rewrite H, H'. reflexivity. Qed.
Lemma whole_counted n z i : whole_index n z = Some i -> forall j, 0 <= j < n -> (counted n z j <-> j = i).
Proof. unfold whole_index, counted, from_end. destruct ((- n <=? z) && (z <? n)) eqn:E; [|discriminate]. intros H j Hj. injection H as <-. destruct (Z.ltb_spec z 0); lia. Qed.

(** positions of the elements that satisfy a test *)
Lemma where_In (f : Q -> bool) vals i : In i (map fst (filter (fun '(_, w) => f w) (combine (arange 0 (zlen vals) 1) vals))) <-> exists w, elem vals i w /\ f w = true.
Proof.
  rewrite in_map_iff. split.
  - intros ([j w] & E & Hf). cbn in E. subst j. apply filter_In in Hf as [Hf Hw]. exists w. split; [|exact Hw].
    apply In_nth_error in Hf as (m & Hm). rewrite nth_error_combine in Hm.
    destruct (nth_error (arange 0 (zlen vals) 1) m) as [j|] eqn:Ej; [|discriminate]. destruct (nth_error vals m) as [b|] eqn:Eb; [|discriminate]. injection Hm as -> ->.
    assert (elem (arange 0 (zlen vals) 1) (Z.of_nat m) i) as He by (split; [lia|now rewrite Nat2Z.id]). apply elem_arange01 in He as [E Hi].
    split; [lia|]. rewrite E. now rewrite Nat2Z.id.
  - intros (w & Hw & Hf). exists (i, w). split; [reflexivity|]. apply filter_In. split; [|exact Hf].
    pose proof (elem_lt _ _ _ Hw) as Hlt. destruct Hw as [Hi Hw]. apply (nth_error_In _ (Z.to_nat i)). rewrite nth_error_combine.
    assert (elem (arange 0 (zlen vals) 1) i i) as [_ ->] by (apply elem_arange01; lia). now rewrite Hw.
Qed.
Lemma matching_spec float vals x l : matching float vals x = Some l ->
  forall i, In i l <-> exists q, as_num x = Some q /\ fits_value float vals q i.
Proof.
  unfold matching. destruct (as_num x) as [q|]; [|destruct float; [discriminate|]; intros H i; injection H as <-; split; [intros []|intros (q & E & _); discriminate]].
  intros H i. transitivity (fits_value float vals q i); [|split; [eauto|intros (q' & E & K); now injection E as <-]]. unfold fits_value. destruct float.
  - destruct (argmin _) as [m|] eqn:E; [|discriminate]. cbn in H. injection H as <-. apply argmin_spec in E. rewrite <- nearest_least. split.
    + intros [<-|[]]. exact E.
    + intros K. left. eapply first_least_unique; eassumption.
  - injection H as <-. rewrite (where_In (fun w => Qeq_bool w q)). split; intros (w & Hw & E); exists w; (split; [exact Hw|]); now apply Qeq_bool_iff.
Qed.
Lemma option_map_some {A B} (f : A -> B) o y : option_map f o = Some y -> exists x, o = Some x /\ y = f x.
Proof. destruct o as [x|]; [|discriminate]. cbn. intros H. injection H as <-. eauto. Qed.

Lemma listed_spec p l : (Nat.ltb 3 (List.length l) || Nat.ltb (List.length l) 2 || has_letter "l" p) = true <-> listed p l.
Proof.
  unfold listed. rewrite !orb_true_iff, !Nat.ltb_lt, has_letter_spec. split; [intros [[H|H]|H]; [right; lia|right; lia|now left]|].
  intros [H|[H1 H2]]; [now right|]. left. lia.
Qed.
Lemma index_mask_spec n p v kp : 0 <= n -> index_mask n p v = Some kp -> masks n kp (by_index n p v).
Proof.
  intros Hn. destruct v as [x|l]; cbn [index_mask].
  - destruct x as [z| |]; [|discriminate|intros H; injection H as <-; eapply masks_ext; [apply all_masks, Hn|]; intros; split; [constructor|trivial]]. intros H. apply option_map_some in H as (i & Hi & ->).
    eapply masks_ext; [apply mark_masks, Hn|]. intros j Hj. cbn [In]. pose proof (whole_counted n z i Hi j Hj) as K. split.
    + intros [<-|[]]. constructor. now apply K.
    + intros H. inversion H; subst. left. symmetry. now apply K.
  - destruct (_ || _ || _) eqn:El.
    + apply listed_spec in El. intros H. apply option_map_some in H as (is & His & ->). apply sequence_Forall2 in His.
      eapply masks_ext; [apply mark_masks, Hn|]. intros j Hj. split.
      * intros Hin. destruct (Forall2_In_r _ _ _ _ His Hin) as (x & Hx & E). destruct (as_int x) as [z|] eqn:Ez; [|discriminate]. cbn in E.
        eapply index_list; [exact El|exact Hx|exact Ez|]. now apply (whole_counted n z j E j Hj).
      * intros H. assert (exists x z, In x l /\ as_int x = Some z /\ counted n z j) as (x & z & Hx & Hz & Hc).
        { inversion H as [ | |? x z ? _ Hx Hz Hc|? ? ? ? ? ? Hn'|? ? ? ? ? ? ? ? Hn']; subst; [eauto 6| |]; destruct El as [El|El]; try contradiction; cbn in El; lia. }
        clear - His Hx Hz Hc Hj. induction His as [|y i l is Hy His IH]; [destruct Hx|]. destruct Hx as [->|Hx]; [|right; now apply IH].
        left. rewrite Hz in Hy. cbn in Hy. symmetry. now apply (whole_counted n z i Hy j Hj).
    + assert (~ listed p l) as Hnl by (intros K; apply listed_spec in K; congruence).
      assert (~ letter "l" p) as Hnp by (intros K; apply Hnl; now left).
      destruct (sequence (map bound l)) as [bs|] eqn:Eb; [|discriminate]. apply sequence_Forall2 in Eb.
      destruct bs as [|a' [|b' [|c' [|]]]]; try discriminate.
      * inversion Eb as [|a ? l1 ? Ha E1]; subst. inversion E1 as [|b ? l2 ? Hb E2]; subst. inversion E2; subst.
        intros H. apply option_map_some in H as (ind & Hind & ->). apply np_index_selects in Hind.
        eapply masks_ext; [apply mark_masks, Hn|]. intros j Hj. split.
        -- intros Hin. eapply index_range; eassumption.
        -- intros H. inversion H as [ | |? ? ? ? Hl|? ? a2 b2 l2 ? _ Ha2 Hb2 Hs2 Hin2|]; subst; [contradiction|].
           rewrite Ha in Ha2. rewrite Hb in Hb2. injection Ha2 as <-. injection Hb2 as <-. now rewrite (selects_unique _ _ _ _ Hind Hs2).
      * inversion Eb as [|a ? l1 ? Ha E1]; subst. inversion E1 as [|b ? l2 ? Hb E2]; subst. inversion E2 as [|c ? l3 ? Hc E3]; subst. inversion E3; subst.
        intros H. apply option_map_some in H as (ind & Hind & ->). apply np_index_selects in Hind.
        eapply masks_ext; [apply mark_masks, Hn|]. intros j Hj. split.
        -- intros Hin. eapply index_stride; eassumption.
        -- intros H. inversion H as [ | |? ? ? ? Hl| |? ? ? a2 b2 c2 l2 ? _ Ha2 Hb2 Hc2 Hs2 Hin2]; subst; [contradiction|].
           rewrite Ha in Ha2. rewrite Hb in Hb2. rewrite Hc in Hc2. injection Ha2 as <-. injection Hb2 as <-. injection Hc2 as <-. now rewrite (selects_unique _ _ _ _ Hind Hs2).
Qed.

Lemma value_mask_spec n p float vals v kp : 0 <= n -> zlen vals = n -> value_mask n p float vals v = Some kp -> masks n kp (by_value float vals p v).
Proof.
  intros Hn Hv. destruct v as [x|l]; cbn [value_mask].
  - intros H. apply option_map_some in H as (ind & Hind & ->). pose proof (matching_spec _ _ _ _ Hind) as K. eapply masks_ext; [apply mark_masks, Hn|].
    intros j Hj. rewrite K. split; [intros (q & Hq & Hf); econstructor; eassumption|]. intros H. inversion H as [? q' ? Hq' Hf| |]; subst. eauto.
  - destruct (has_letter "l" p) eqn:El.
    + apply has_letter_spec in El. intros H. apply option_map_some in H as (ls & Hls & ->). apply sequence_Forall2 in Hls.
      eapply masks_ext; [apply mark_masks, Hn|]. intros j Hj. rewrite in_concat. split.
      * intros (m & Hm & Hjm). destruct (Forall2_In_r _ _ _ _ Hls Hm) as (x & Hx & E). destruct (proj1 (matching_spec _ _ _ _ E j) Hjm) as (q & Hq & Hf). eapply value_list; [exact El|exact Hx|exact Hq|exact Hf].
      * intros H. inversion H as [|? x q ? _ Hx Hq Hf|]; subst; [|contradiction].
        clear - Hls Hx Hq Hf. induction Hls as [|y m l ls Hy Hls IH]; [destruct Hx|]. destruct Hx as [->|Hx].
        -- exists m. split; [now left|]. apply (matching_spec _ _ _ _ Hy). eauto.
        -- destruct (IH Hx) as (m' & K1 & K2). exists m'. split; [now right|exact K2].
    + apply no_letter in El. destruct l as [|a [|b [|]]]; try discriminate; cbn [map]; try (destruct (as_num a) as [qa|]; discriminate).
      destruct (as_num a) as [qa|] eqn:Ea; [|discriminate]. destruct (as_num b) as [qb|] eqn:Eb; [|discriminate].
      * intros H. injection H as <-. eapply masks_ext; [apply mark_masks, Hn|]. intros j Hj.
        rewrite (where_In (fun w => Qle_bool (Qmin qa qb) w && Qle_bool w (Qmax qa qb))).
        assert (forall w, (Qle_bool (Qmin qa qb) w && Qle_bool w (Qmax qa qb)) = true <-> ((qa <= w <= qb) \/ (qb <= w <= qa))%Q) as K.
        { intros w. rewrite andb_true_iff, !Qle_bool_iff. rewrite Q.min_le_iff, Q.max_le_iff. split.
          - intros [[H1|H1] [H2|H2]]; auto.
            + destruct (Qlt_le_dec w qb) as [H|H]; [left; split; [exact H1|now apply Qlt_le_weak]|right; auto].
            + destruct (Qlt_le_dec w qa) as [H|H]; [right; split; [exact H1|now apply Qlt_le_weak]|left; auto].
          - intros [[H1 H2]|[H1 H2]]; auto. }
        split.
        -- intros (w & Hw & E). eapply value_range; [exact El|exact Ea|exact Eb|exact Hw|now apply K].
        -- intros H. inversion H as [| |? ? qa' qb' ? w _ Ha' Hb' Hw Hr]; subst; [contradiction|]. exists w. split; [exact Hw|]. apply K.
           rewrite Ea in Ha'. rewrite Eb in Hb'. injection Ha' as <-. injection Hb' as <-. exact Hr.
      * destruct (as_num a) as [qa|]; [|discriminate]. destruct (as_num b) as [qb|]; discriminate.
Qed.

(** *** one keyword *)
Section Keyword.
Context (N : naming) (a : axis) (Hf : full_arrays N a).
Lemma index_letter_cases p : has_letter "i" p = true /\ letter "i" p \/ has_letter "i" p = false /\ ~ letter "i" p.
Proof. destruct (has_letter "i" p) eqn:E; [left; split; [reflexivity|now apply has_letter_spec]|right; split; [reflexivity|now apply no_letter]]. Qed.
Lemma values_named_unique ax v v' : values_named N a ax v -> values_named N a ax v' -> v = v'.
Proof. intros [[H1 ->]|[H1 H2]] [[H3 ->]|[H3 H4]]; congruence. Qed.
Lemma keyword_mask_spec k v p ax r : named N a k p ax -> keyword_mask N a k v = Some r ->
  match r with None => ~ concerns N a p ax | Some kp => concerns N a p ax /\ masks (axis_len a) kp (chosen N a p ax v) end.
Proof.
  intros Hk. apply parse_named in Hk. unfold keyword_mask. rewrite Hk. destruct Hf as [Hf1 Hf2]. pose proof (axis_len_nonneg a) as Hn.
  assert (forall kp P, masks (axis_len a) kp P -> (forall i, P i <-> described N a p ax v i) -> masks (axis_len a) (if has_letter "n" p then map negb kp else kp) (chosen N a p ax v)) as K.
  { intros kp P Hm HP. destruct (has_letter "n" p) eqn:En; [apply has_letter_spec in En; apply negb_masks in Hm|apply no_letter in En]; (eapply masks_ext; [exact Hm|]); intros i _; unfold chosen; rewrite HP; tauto. }
  destruct (index_letter_cases p) as [[-> Hi]|[-> Hi]].
  - destruct (alias N a ax) eqn:Ea.
    + destruct (index_mask (axis_len a) p v) as [kp|] eqn:Em; [|discriminate]. cbn [option_map]. intros H. injection H as <-. split; [left; auto|].
      apply (K _ _ (index_mask_spec _ _ _ _ Hn Em)). intros i. unfold described. tauto.
    + intros H. injection H as <-. intros [[_ H]|[H _]]; [congruence|contradiction].
  - assert (forall vals kp, values_named N a ax vals -> zlen vals = axis_len a -> value_mask (axis_len a) p (floating N a ax) vals v = Some kp ->
      concerns N a p ax /\ masks (axis_len a) (if has_letter "n" p then map negb kp else kp) (chosen N a p ax v)) as K2.
    { intros vals kp Hv Hl Em. split; [right; split; [exact Hi|eauto]|]. apply (K _ _ (value_mask_spec _ _ _ _ _ _ Hn Hl Em)). intros i. unfold described. split.
      - intros H. right. split; [exact Hi|]. eauto.
      - intros [[H _]|[_ (vals' & Hv' & H)]]; [contradiction|]. now rewrite (values_named_unique _ _ _ Hv Hv'). }
    destruct (alias N a ax) eqn:Ea.
    + destruct (value_mask (axis_len a) p (floating N a ax) (axis_vals a) v) as [kp|] eqn:Em; [|discriminate]. cbn [option_map]. intros H. injection H as <-.
      apply (K2 (axis_vals a)); [left; auto|exact Hf1|exact Em].
    + destruct (auxarray N a ax) as [vals|] eqn:Ex.
      * destruct (value_mask (axis_len a) p (floating N a ax) vals v) as [kp|] eqn:Em; [|discriminate]. cbn [option_map]. intros H. injection H as <-.
        apply (K2 vals); [right; auto|now apply (Hf2 ax)|exact Em].
      * intros H. injection H as <-. intros [[H _]|[_ (vals & [[H _]|[_ H]])]]; [contradiction|congruence|congruence].
Qed.

Lemma named_unique k p ax p' ax' : named N a k p ax -> named N a k p' ax' -> p = p' /\ ax = ax'.
Proof. intros H H'. apply parse_named in H, H'. rewrite H in H'. injection H' as -> ->. auto. Qed.
Lemma named_total k : exists p ax, named N a k p ax.
Proof. destruct (parse N a k) as [p ax] eqn:E. apply parse_named in E. eauto. Qed.
Lemma get_slice_loop_spec kw : forall keep P keep' rest, masks (axis_len a) keep P -> get_slice_loop N a keep kw = Some (keep', rest) ->
  masks (axis_len a) keep' (fun i => P i /\ forall k v p ax, In (k, v) kw -> named N a k p ax -> concerns N a p ax -> chosen N a p ax v i) /\
  (forall k v, In (k, v) rest <-> In (k, v) kw /\ ~ about N a k).
Proof.
  induction kw as [|[k v] kw IH]; intros keep P keep' rest Hm; cbn [get_slice_loop].
  - intros H. injection H as <- <-. split; [eapply masks_ext; [exact Hm|]; intros i _; split; [intros H; split; [exact H|intros ? ? ? ? []]|tauto]|]. intros k v. cbn. tauto.
  - destruct (named_total k) as (p & ax & Hk). destruct (keyword_mask N a k v) as [[kp|]|] eqn:E; [| |discriminate]; pose proof (keyword_mask_spec _ _ _ _ _ Hk E) as Hs; cbn beta iota in Hs.
    + intros H. destruct Hs as [Hc Hkp]. destruct (IH _ _ _ _ (and_masks _ _ _ _ _ Hm Hkp) H) as [H1 H2]. split.
      * eapply masks_ext; [exact H1|]. intros i _. cbv beta. split.
        -- intros [[HP Hch] Hall]. split; [exact HP|]. intros k' v' p' ax' [Ein|Hin] Hk' Hc'; [|now apply (Hall k' v')]. injection Ein as <- <-. destruct (named_unique _ _ _ _ _ Hk Hk') as [<- <-]. exact Hch.
        -- intros [HP Hall]. split; [split; [exact HP|apply (Hall k v p ax); [now left|exact Hk|exact Hc]]|]. intros k' v' p' ax' Hin. apply Hall. now right.
      * intros k' v'. rewrite H2. cbn. split; [tauto|]. intros [[Ein|Hin] Hn]; [|tauto]. injection Ein as <- <-. exfalso. apply Hn. exists p, ax. auto.
    + intros H. apply option_map_some in H as ([kp' rest'] & H & Er). injection Er as -> ->. destruct (IH _ _ _ _ Hm H) as [H1 H2]. split.
      * eapply masks_ext; [exact H1|]. intros i _. cbv beta. split; (intros [HP Hall]; split; [exact HP|]); intros k' v' p' ax' Hin Hk' Hc'.
        -- destruct Hin as [Ein|Hin]; [|now apply (Hall k' v')]. injection Ein as <- <-. destruct (named_unique _ _ _ _ _ Hk Hk') as [<- <-]. contradiction.
        -- apply (Hall k' v'); [now right|exact Hk'|exact Hc'].
      * intros k' v'. cbn. rewrite H2. split; [|tauto]. intros [Ein|Hin]; [|tauto]. injection Ein as <- <-. split; [now left|]. intros (p' & ax' & Hk' & Hc'). destruct (named_unique _ _ _ _ _ Hk Hk') as [<- <-]. contradiction.
Qed.
Lemma get_slice_spec kw sl rest : get_slice N a kw = Some (sl, rest) ->
  exists l, sl = simplify l /\ selected N a (fun k v => In (k, v) kw) l /\ forall k v, In (k, v) rest <-> In (k, v) kw /\ ~ about N a k.
Proof.
  intros H. unfold get_slice in H. apply option_map_some in H as ([keep r] & H & E). injection E as -> ->.
  destruct (get_slice_loop_spec kw _ _ _ _ (all_masks _ (axis_len_nonneg a)) H) as [H1 H2]. exists (flatnonzero keep). split; [reflexivity|]. split; [|exact H2].
  destruct (flatnonzero_spec _ _ _ H1) as (K1 & K2 & K3). split; [exact K1|]. split; [exact K2|]. intros i Hi. rewrite K3. tauto.
Qed.
(** *** no exception *)
Lemma whole_index_total n z : - n <= z < n -> exists i, whole_index n z = Some i.
Proof. intros H. unfold whole_index. replace ((- n <=? z) && (z <? n)) with true by (symmetry; apply andb_true_iff; lia). eauto. Qed.
Lemma sequence_total {A B} (f : A -> option B) l : (forall x, In x l -> exists y, f x = Some y) -> exists r, sequence (map f l) = Some r.
Proof.
  induction l as [|x l IH]; intros H; [now exists []|]. destruct (H x (or_introl eq_refl)) as (y & Hy). destruct IH as (r & Hr); [intros; apply H; now right|].
  exists (y :: r). cbn [map sequence]. rewrite Hy. cbn in *. rewrite Hr. reflexivity.
Qed.
Lemma np_index_total s n : s_step s <> Some 0 -> exists l, np_index (SSlice s) n = Some l.
Proof.
  intros H. cbn [np_index]. destruct (Z.eqb_spec (eff_step s) 0) as [E|E]; [|eauto]. exfalso. destruct s as [? ? [st|]]; cbn in *; [|discriminate]. unfold eff_step in E. cbn in E. congruence.
Qed.
Lemma index_mask_total n p v : good_index n p v -> exists kp, index_mask n p v = Some kp.
Proof.
  destruct v as [[z|q|]|l]; cbn [good_index index_mask]; [|tauto|eauto|].
  - intros H. destruct (whole_index_total n z H) as (i & ->). cbn. eauto.
  - intros [[Hl Hx]|(Hl & Hx & H0)].
    + apply listed_spec in Hl. rewrite Hl. destruct (sequence_total (fun x => bind (as_int x) (whole_index n)) l) as (r & ->); [|cbn; eauto].
      intros x Hin. destruct (Hx x Hin) as (z & -> & Hz). cbn. now apply whole_index_total.
    + destruct (_ || _ || _) eqn:E; [apply listed_spec in E; contradiction|]. destruct (sequence_total bound l Hx) as (r & Hr). rewrite Hr. apply sequence_Forall2 in Hr.
      assert (List.length l = 2 \/ List.length l = 3)%nat as [Hlen|Hlen] by (unfold listed in Hl; lia).
      * destruct l as [|x [|y [|]]]; try discriminate. inversion Hr as [|? a' ? ? Ha E1]; subst. inversion E1 as [|? b' ? ? Hb E2]; subst. inversion E2; subst.
        destruct (np_index_total (Slice a' b' None) n) as (ind & ->); [discriminate|]. cbn. eauto.
      * destruct l as [|x [|y [|z [|]]]]; try discriminate. inversion Hr as [|? a' ? ? Ha E1]; subst. inversion E1 as [|? b' ? ? Hb E2]; subst. inversion E2 as [|? c' ? ? Hc E3]; subst. inversion E3; subst.
        destruct (np_index_total (Slice a' b' c') n) as (ind & ->); [|cbn; eauto]. cbn in *. destruct z as [z|q|]; cbn in Hc; try discriminate; injection Hc as <-; congruence.
Qed.
Lemma as_num_total x : x <> Nothing -> exists q, as_num x = Some q.
Proof. destruct x; cbn; [eauto|eauto|congruence]. Qed.
Lemma matching_total float n vals x : zlen vals = n -> (float = true -> 0 < n /\ x <> Nothing) -> exists l, matching float vals x = Some l.
Proof.
  intros Hv H. unfold matching. destruct float; [|destruct (as_num x); eauto]. destruct (H eq_refl) as [Hn Hx]. destruct (as_num_total x Hx) as (q & ->).
  destruct vals as [|w vals]; [unfold zlen in Hv; cbn in Hv; lia|]. cbn. eauto.
Qed.
Lemma value_mask_total float n vals p v : zlen vals = n -> good_value float n p v -> exists kp, value_mask n p float vals v = Some kp.
Proof.
  intros Hv. destruct v as [x|l]; cbn [good_value value_mask].
  - intros H. destruct (matching_total float n vals x Hv H) as (l & ->). cbn. eauto.
  - intros [[Hl Hx]|(Hl & Hlen & Hn)].
    + apply has_letter_spec in Hl. rewrite Hl. destruct (sequence_total (matching float vals) l) as (r & ->); [|cbn; eauto]. intros x Hin. apply (matching_total float n vals x Hv). auto.
    + apply no_letter in Hl. rewrite Hl. destruct l as [|x [|y [|]]]; try discriminate. cbn [map].
      destruct (as_num_total x) as (qx & ->); [intros ->; apply Hn; now left|]. destruct (as_num_total y) as (qy & ->); [intros ->; apply Hn; right; now left|]. eauto.
Qed.
Lemma keyword_mask_total k v p ax : named N a k p ax -> (concerns N a p ax -> good_request N a p ax v) -> exists r, keyword_mask N a k v = Some r.
Proof.
  intros Hk Hg. apply parse_named in Hk. unfold keyword_mask. rewrite Hk. destruct Hf as [Hf1 Hf2].
  destruct (index_letter_cases p) as [[-> Hi]|[-> Hi]].
  - destruct (alias N a ax) eqn:Ea; [|eauto]. destruct (index_mask_total (axis_len a) p v) as (kp & ->); [apply Hg; [left|]; auto|]. cbn. eauto.
  - destruct (alias N a ax) eqn:Ea.
    + destruct (value_mask_total (floating N a ax) (axis_len a) (axis_vals a) p v Hf1) as (kp & ->); [|cbn; eauto]. apply Hg; [|exact Hi]. right. split; [exact Hi|]. exists (axis_vals a). left. auto.
    + destruct (auxarray N a ax) as [vals|] eqn:Ex; [|eauto]. destruct (value_mask_total (floating N a ax) (axis_len a) vals p v) as (kp & ->); [now apply (Hf2 ax)| |cbn; eauto].
      apply Hg; [|exact Hi]. right. split; [exact Hi|]. exists vals. right. auto.
Qed.
Lemma get_slice_total kw : (forall k v p ax, In (k, v) kw -> named N a k p ax -> concerns N a p ax -> good_request N a p ax v) -> exists r, get_slice N a kw = Some r.
Proof.
  intros Hg. unfold get_slice. assert (forall keep, exists r, get_slice_loop N a keep kw = Some r) as K; [|destruct (K (map (fun _ => true) (arange 0 (axis_len a) 1))) as ([keep r] & ->); cbn; eauto].
  induction kw as [|[k v] kw IH]; intros keep; cbn [get_slice_loop]; [eauto|]. destruct (named_total k) as (p & ax & Hk).
  destruct (keyword_mask_total k v p ax Hk) as (r & ->); [apply (Hg k v); [now left|exact Hk]|].
  assert (forall keep, exists r, get_slice_loop N a keep kw = Some r) as IH' by (apply IH; intros k' v' p' ax' Hin; apply Hg; now right).
  destruct r as [kp|]; [apply IH'|]. destruct (IH' keep) as ([k' r'] & ->). cbn. eauto.
Qed.
End Keyword.

(** *** all axes *)
Lemma selected_ext N a K K' l : (forall k v, K k v <-> K' k v) -> selected N a K l -> selected N a K' l.
Proof.
  intros E (H1 & H2 & H3). split; [exact H1|]. split; [exact H2|]. intros i Hi. rewrite (H3 i Hi). split; intros H k v p ax Hk; apply H; now apply E.
Qed.
Lemma goes_to_cons N a axes kw kw' j k v : (forall k v, In (k, v) kw' <-> In (k, v) kw /\ ~ about N a k) ->
  (goes_to N axes kw' j k v <-> goes_to N (a :: axes) kw (S j) k v).
Proof.
  intros Hr. unfold goes_to. rewrite Hr. split.
  - intros [[H1 H2] H3]. split; [exact H1|]. intros [|i] b Hi Hb; cbn in Hb; [injection Hb as <-; exact H2|]. apply (H3 i b); [lia|exact Hb].
  - intros [H1 H2]. split; [split; [exact H1|apply (H2 0%nat a); [lia|reflexivity]]|]. intros i b Hi Hb. apply (H2 (S i) b); [lia|exact Hb].
Qed.
Lemma get_slices_spec N axes : Forall (full_arrays N) axes -> forall kw sls rest, get_slices N axes kw = Some (sls, rest) ->
  exists inds, sls = map simplify inds /\ all_selected N axes kw inds /\
    forall k v, In (k, v) rest <-> In (k, v) kw /\ forall b, In b axes -> ~ about N b k.
Proof.
  induction 1 as [|a axes Hf Hfs IH]; intros kw sls rest; cbn [get_slices].
  - intros H. injection H as <- <-. exists []. split; [reflexivity|]. split; [split; [reflexivity|intros [|j] a l Ha; discriminate]|]. intros k v. cbn. tauto.
  - destruct (get_slice N a kw) as [[sl kw']|] eqn:E; [|discriminate]. intros H. apply option_map_some in H as ([sls' rest'] & H & Er). injection Er as -> ->.
    destruct (get_slice_spec N a Hf _ _ _ E) as (l & -> & Hl & Hr). destruct (IH _ _ _ H) as (inds & -> & [Hlen Hs] & Hrest).
    exists (l :: inds). split; [reflexivity|]. split.
    + split; [cbn; congruence|]. intros [|j] b m Hb Hm; cbn in Hb, Hm.
      * injection Hb as <-. injection Hm as <-. eapply selected_ext; [|exact Hl]. intros k v. unfold goes_to. split; [intros K; split; [exact K|intros; lia]|tauto].
      * eapply selected_ext; [|exact (Hs j b m Hb Hm)]. intros k v. now apply goes_to_cons.
    + intros k v. rewrite Hrest, Hr. cbn. split; [intros [[H1 H2] H3]; split; [exact H1|intros b [<-|Hb]; auto]|]. intros [H1 H2]. split; [split; auto|auto].
Qed.
Lemma get_slices_total N axes : Forall (full_arrays N) axes -> forall kw, good_keywords N axes kw -> exists r, get_slices N axes kw = Some r.
Proof.
  induction 1 as [|a axes Hf Hfs IH]; intros kw Hg; cbn [get_slices]; [eauto|].
  destruct (get_slice_total N a Hf kw) as ([sl kw'] & E).
  { intros k v p ax Hin. apply (Hg 0%nat a k v p ax eq_refl). split; [exact Hin|intros; lia]. }
  rewrite E. destruct (get_slice_spec N a Hf _ _ _ E) as (l & -> & Hl & Hr). destruct (IH kw') as ([sls rest] & ->); [|cbn; eauto].
  intros j b k v p ax Hb Hk. apply (Hg (S j) b k v p ax Hb). now apply (goes_to_cons N a axes kw kw').
Qed.

(** *** the prefixes m and s *)
Lemma without_twice p : without "s" (without "m" p) = plain_letters p.
Proof.
  unfold plain_letters. induction p as [|c p IH]; [reflexivity|]. cbn [without list_ascii_of_string filter].
  rewrite (Ascii.eqb_sym c "m"), (Ascii.eqb_sym c "s"). destruct (Ascii.eqb "m" c); cbn [orb negb]; [exact IH|]. cbn [without]. destruct (Ascii.eqb "s" c); cbn [negb]; [exact IH|]. cbn. now rewrite IH.
Qed.
Lemma has_letter_without c d p : c <> d -> has_letter c (without d p) = has_letter c p.
Proof.
  intros Hne. induction p as [|e p IH]; [reflexivity|]. cbn [without has_letter]. destruct (Ascii.eqb_spec d e) as [<-|]; [|cbn; now rewrite IH].
  rewrite IH. destruct (Ascii.eqb_spec c d); [contradiction|reflexivity].
Qed.
Lemma which_axis_spec N axes k j : which_axis N axes k = Some j <-> first_axis N axes k j.
Proof.
  unfold which_axis, first_axis.
  assert (forall s, option_map fst (find (fun '(_, a) => alias N a k) (combine (seq s (List.length axes)) axes)) = Some (s + j)%nat <->
    (exists a, nth_error axes j = Some a /\ alias N a k = true) /\ (forall i a, (i < j)%nat -> nth_error axes i = Some a -> alias N a k = false)) as K; [|exact (K 0%nat)].
  revert j. induction axes as [|a axes IH]; intros j s; cbn [List.length seq combine find].
  - split; [discriminate|]. intros [(a & E & _) _]. destruct j; discriminate.
  - destruct (alias N a k) eqn:Ea; cbn [option_map fst].
    + destruct j as [|j].
      * rewrite Nat.add_0_r. split; [|reflexivity]. intros _. split; [exists a; auto|intros; lia].
      * split; [intros E; injection E; lia|]. intros [_ H]. specialize (H 0%nat a ltac:(lia) eq_refl). congruence.
    + destruct j as [|j].
      * split.
        -- intros E. exfalso. destruct (find _ _) as [[m b]|] eqn:Ef; [|discriminate]. cbn in E. injection E as E. apply find_some in Ef as [Ef _]. apply in_combine_l, in_seq in Ef. lia.
        -- intros [(b & E & H) _]. cbn in E. injection E as <-. congruence.
      * replace (s + S j)%nat with (S s + j)%nat by lia. rewrite (IH j (S s)). split.
        -- intros [H1 H2]. split; [exact H1|]. intros [|i] b Hi Hb; cbn in Hb; [now injection Hb as <-|]. apply (H2 i); [lia|exact Hb].
        -- intros [H1 H2]. split; [exact H1|]. intros i b Hi Hb. apply (H2 (S i)); [lia|exact Hb].
Qed.
Lemma axis_name_first N axes k : axis_name N axes k -> exists j, which_axis N axes k = Some j.
Proof.
  intros (a & Hin & Ha). unfold which_axis. destruct (find _ _) as [[m b]|] eqn:Ef; [cbn; eauto|]. exfalso.
  apply In_nth_error in Hin as (i & Hi). assert (In (i, a) (combine (seq 0 (List.length axes)) axes)) as Hin.
  { apply (nth_error_In _ i). rewrite nth_error_combine, nth_error_seq, Hi. replace (Nat.ltb i (List.length axes)) with true; [reflexivity|]. symmetry. apply Nat.ltb_lt. apply nth_error_Some. congruence. }
  pose proof (find_none _ _ Ef _ Hin) as K. cbn in K. congruence.
Qed.
Lemma has_axis_spec N axes k : has_axis N axes k = true <-> axis_name N axes k.
Proof.
  unfold has_axis. split; [|intros H; apply axis_name_first in H as (j & ->); reflexivity].
  destruct (which_axis N axes k) as [j|] eqn:E; [|discriminate]. intros _. apply which_axis_spec in E as [(a & Ha & E) _]. exists a. split; [|exact E]. now apply nth_error_In in Ha.
Qed.
Lemma no_axis_name N axes k : has_axis N axes k = false <-> ~ axis_name N axes k.
Proof. rewrite <- has_axis_spec. destruct (has_axis N axes k); split; congruence. Qed.
Lemma call_parse N axes k p ax :
  (if has_axis N axes k then (EmptyString, k) else match split_key k with Some pr => pr | None => (EmptyString, k) end) = (p, ax) <-> call_named N axes k p ax.
Proof.
  unfold call_named. destruct (has_axis N axes k) eqn:Ea; [apply has_axis_spec in Ea|apply no_axis_name in Ea].
  - split; [intros E; injection E as <- <-; auto|]. intros [(-> & -> & _)|(E & _)]; [reflexivity|contradiction].
  - destruct (split_key k) as [[p' r']|] eqn:E.
    + split.
      * intros H. injection H as -> ->. right. apply split_key_some in E. tauto.
      * intros [(_ & _ & [H|H])|(_ & H)]; [contradiction|apply split_key_none in H; congruence|]. apply split_key_some in H. congruence.
    + split.
      * intros H. injection H as <- <-. left. apply split_key_none in E. auto.
      * intros [(-> & -> & _)|(_ & H)]; [reflexivity|]. apply split_key_some in H. congruence.
Qed.
Lemma store_new k v d : ~ In k (map fst d) -> store k v d = d ++ [(k, v)].
Proof.
  induction d as [|[k' v'] d IH]; intros H; [reflexivity|]. cbn in *. destruct (String.eqb_spec k k') as [->|]; [tauto|]. rewrite IH by tauto. reflexivity.
Qed.
Lemma call_named_total N axes k : exists p ax, call_named N axes k p ax.
Proof. destruct (if has_axis N axes k then (EmptyString, k) else match split_key k with Some pr => pr | None => (EmptyString, k) end) as [p ax] eqn:E. apply call_parse in E. eauto. Qed.
Lemma call_named_unique N axes k p ax p' ax' : call_named N axes k p ax -> call_named N axes k p' ax' -> p = p' /\ ax = ax'.
Proof. intros H H'. apply call_parse in H, H'. rewrite H in H'. injection H' as -> ->. auto. Qed.

Lemma prefixes_spec N axes kw : forall means squeezes new kw',
  (forall kv ax, In kv kw -> asks N axes "m" kv ax \/ asks N axes "s" kv ax -> axis_name N axes ax) ->
  Forall2 (strips N axes) kw kw' -> NoDup (map fst (new ++ kw')) ->
  exists ms ss, prefixes N axes kw means squeezes new = Some (means ++ ms, squeezes ++ ss, new ++ kw') /\
    (forall ax, In ax ms <-> exists kv, In kv kw /\ asks N axes "m" kv ax) /\
    (forall ax, In ax ss <-> exists pre kv post, kw = pre ++ kv :: post /\ asks N axes "s" kv ax /\ ~ In ax means /\ forall kv', In kv' (pre ++ [kv]) -> ~ asks N axes "m" kv' ax).
Proof.
  induction kw as [|[k v] kw IH]; intros means squeezes new kw' Hax Hst Hnd.
  - inversion Hst; subst. exists [], []. cbn [prefixes]. rewrite !app_nil_r. split; [reflexivity|]. split; intros ax; (split; [intros []|]); [intros (? & [] & _)|intros (pre & ? & post & E & _); destruct pre; discriminate].
  - inversion Hst as [|? kv' ? kw1 [Hv (p & ax & Hk & Ek)] Hst']; subst. cbn [fst snd] in *. destruct kv' as [k' v']. cbn [fst snd] in *. subst v'.
    cbn [prefixes]. rewrite (proj2 (call_parse N axes k p ax) Hk).
    assert (((has_letter "m" p || has_letter "s" p) && negb (has_axis N axes ax)) = false) as ->.
    { destruct (has_letter "m" p || has_letter "s" p) eqn:E; [|reflexivity]. cbn [andb]. assert (has_axis N axes ax = true) as ->; [|reflexivity]. apply has_axis_spec.
      apply (Hax (k, v) ax); [now left|]. apply orb_true_iff in E as [E|E]; apply has_letter_spec in E; [left|right]; exists p; auto. }
    rewrite without_twice, has_letter_without by discriminate. fold (stripped p ax).
    replace (match plain_letters p with EmptyString => ax | String _ _ => (plain_letters p ++ String underscore ax)%string end) with k'
      by (rewrite Ek; unfold stripped; destruct (plain_letters p); reflexivity).
    assert (~ In k' (map fst new)) as Hnew. { rewrite map_app in Hnd. cbn in Hnd. apply NoDup_remove_2 in Hnd. rewrite in_app_iff in Hnd. tauto. }
    rewrite store_new by exact Hnew.
    assert (forall c, asks N axes c (k, v) ax <-> letter c p) as Ka.
    { intros c. unfold asks. cbn [fst]. split; [intros (p' & Hp & Hl); destruct (call_named_unique _ _ _ _ _ _ _ Hk Hp) as [<- _]; exact Hl|eauto]. }
    assert (forall c ax', asks N axes c (k, v) ax' -> ax' = ax) as Kax.
    { intros c ax' (p' & Hp & _). cbn in Hp. now destruct (call_named_unique _ _ _ _ _ _ _ Hk Hp) as [_ <-]. }
    set (means1 := if has_letter "m" p then means ++ [ax] else means).
    set (sq := if has_letter "s" p && negb (existsb (String.eqb ax) means1) then [ax] else []).
    destruct (IH means1 (squeezes ++ sq) (new ++ [(k', v)]) kw1) as (ms & ss & Hp & Hms & Hss); [intros kv ax' Hin; apply Hax; now right|exact Hst'|now rewrite <- app_assoc|].
    exists ((if has_letter "m" p then [ax] else []) ++ ms), (sq ++ ss). split; [|split].
    + replace (if has_letter "s" p && negb (existsb (String.eqb ax) means1) then squeezes ++ [ax] else squeezes) with (squeezes ++ sq)
        by (unfold sq; destruct (_ && _); [reflexivity|apply app_nil_r]).
      rewrite Hp. f_equal. f_equal; [f_equal|]; [|now rewrite app_assoc|now rewrite <- app_assoc]. unfold means1. destruct (has_letter "m" p); [now rewrite <- app_assoc|reflexivity].
    + intros ax'. rewrite in_app_iff, Hms. split.
      * intros [H|(kv & Hin & Hkv)]; [|exists kv; split; [now right|exact Hkv]]. destruct (has_letter "m" p) eqn:E; [|destruct H]. destruct H as [<-|[]]. exists (k, v). split; [now left|]. apply Ka. now apply has_letter_spec.
      * intros (kv & [<-|Hin] & Hkv); [|right; eauto]. left. pose proof (Kax _ _ Hkv). subst ax'. apply Ka, has_letter_spec in Hkv. rewrite Hkv. now left.
    + intros ax'. rewrite in_app_iff, Hss.
      assert (In ax' means1 <-> In ax' means \/ asks N axes "m" (k, v) ax') as Hm1.
      { unfold means1. destruct (has_letter "m" p) eqn:E.
        - rewrite in_app_iff. cbn. split; [intros [H|[<-|[]]]; [now left|right; apply Ka; now apply has_letter_spec]|]. intros [H|H]; [now left|right; left; symmetry; now apply (Kax "m"%char)].
        - split; [now left|]. intros [H|H]; [exact H|]. pose proof (Kax _ _ H). subst ax'. apply Ka, has_letter_spec in H. congruence. }
      split.
      * intros [H|(pre & kv & post & -> & Hs & Hnm & Hno)].
        -- unfold sq in H. destruct (has_letter "s" p && negb (existsb (String.eqb ax) means1)) eqn:E; [|destruct H]. destruct H as [<-|[]]. apply andb_true_iff in E as [E1 E2].
           apply negb_true_iff in E2. assert (~ In ax means1) as Hn. { intros K. assert (existsb (String.eqb ax) means1 = true); [|congruence]. apply existsb_exists. exists ax. split; [exact K|apply String.eqb_refl]. }
           rewrite Hm1 in Hn. exists [], (k, v), kw. split; [reflexivity|]. split; [apply Ka; now apply has_letter_spec|]. split; [tauto|]. intros kv' [<-|[]]. tauto.
        -- rewrite Hm1 in Hnm. exists ((k, v) :: pre), kv, post. split; [reflexivity|]. split; [exact Hs|]. split; [tauto|]. intros kv' [<-|Hin]; [tauto|now apply Hno].
      * intros (pre & kv & post & E & Hs & Hnm & Hno). destruct pre as [|kv0 pre]; cbn in E; injection E as E1 E2; subst.
        -- left. pose proof (Kax _ _ Hs). subst ax'. apply Ka, has_letter_spec in Hs. unfold sq. rewrite Hs.
           assert (existsb (String.eqb ax) means1 = false) as ->; [|now left]. apply not_true_is_false. intros K. apply existsb_exists in K as (y & Hy & Ey). apply String.eqb_eq in Ey. subst y.
           apply Hm1 in Hy as [Hy|Hy]; [contradiction|]. apply (Hno (k, v)); [now left|exact Hy].
        -- right. exists pre, kv, post. split; [reflexivity|]. split; [exact Hs|]. split; [|intros kv' Hin; apply Hno; now right]. rewrite Hm1. intros [K|K]; [contradiction|]. apply (Hno (k, v)); [now left|exact K].
Qed.

(** *** calling a variable *)
Lemma increasing_distinct l : increasing l -> NoDup l.
Proof. apply increasing_NoDup. Qed.
Lemma slices_chosen axes inds : List.length inds = List.length axes -> (forall j a l, nth_error axes j = Some a -> nth_error inds j = Some l -> in_range (axis_len a) l) ->
  Forall2 (fun '(n, s) l => index_of_slice s n l) (combine (map axis_len axes) (map simplify inds)) inds.
Proof.
  revert inds. induction axes as [|a axes IH]; intros [|l inds] Hlen H; try discriminate; cbn [map combine]; constructor.
  - apply (slice_index_spec (fun _ : list Z => tt)). unfold slice_index. pose proof (H 0%nat a l eq_refl eq_refl) as Hr. pose proof (np_index_simplify l (axis_len a) Hr) as K.
    destruct (simplify l); [exact K|discriminate K|exact K].
  - apply IH; [cbn in Hlen; lia|]. intros j b m Hb Hm. apply (H (S j) b m Hb Hm).
Qed.
Lemma names_located N axes names : (forall ax, In ax names -> axis_name N axes ax) ->
  exists js, sequence (map (which_axis N axes) names) = Some js /\ forall j, In j js <-> exists ax, In ax names /\ first_axis N axes ax j.
Proof.
  intros H. destruct (sequence_total (which_axis N axes) names) as (js & Hjs); [intros ax Hin; apply axis_name_first; auto|]. exists js. split; [exact Hjs|].
  apply sequence_Forall2 in Hjs. intros j. split.
  - intros Hj. destruct (Forall2_In_r _ _ _ _ Hjs Hj) as (ax & Hax & E). exists ax. split; [exact Hax|now apply which_axis_spec].
  - intros (ax & Hin & Hfa). apply which_axis_spec in Hfa. clear H. induction Hjs as [|y i l is Hy His IH]; [destruct Hin|]. destruct Hin as [->|Hin]; [left; congruence|right; auto].
Qed.
Lemma call_statement {V} N env (junk : list Z -> V) (x : var axis V) D kw kw' :
  env_ok env -> holds env x D -> Forall (full_arrays N) (var_axes x) ->
  (forall kv ax, In kv kw -> asks N (var_axes x) "m" kv ax \/ asks N (var_axes x) "s" kv ax -> axis_name N (var_axes x) ax) ->
  Forall2 (strips N (var_axes x)) kw kw' -> NoDup (map fst kw') ->
  (forall k v, In (k, v) kw' -> exists a, In a (var_axes x) /\ about N a k) ->
  good_keywords N (var_axes x) kw' ->
  exists y D' ms ss inds, call N env junk x kw = Some (y, ms, ss) /\
    all_selected N (var_axes x) kw' inds /\
    Forall2 (fun '(a, b) l => sliced a l b) (combine (var_axes x) (var_axes y)) inds /\
    var_shape y = map zlen inds /\ holds env y D' /\ (forall p q, picks inds p q -> D' p = D q) /\
    (forall j, In j ms <-> exists kv ax, In kv kw /\ asks N (var_axes x) "m" kv ax /\ first_axis N (var_axes x) ax j) /\
    (forall j, In j ss <-> exists ax, first_axis N (var_axes x) ax j /\ exists pre kv post, kw = pre ++ kv :: post /\
       asks N (var_axes x) "s" kv ax /\ forall kv', In kv' (pre ++ [kv]) -> ~ asks N (var_axes x) "m" kv' ax).
Proof.
  intros Henv Hx Hf Hms Hst Hnd Hab Hg. unfold call.
  destruct (prefixes_spec N (var_axes x) kw [] [] [] kw' Hms Hst Hnd) as (ms & ss & -> & Hm & Hs). cbn [app].
  destruct (get_slices_total N (var_axes x) Hf kw' Hg) as ([sls rest] & E). rewrite E.
  destruct (get_slices_spec N (var_axes x) Hf kw' _ _ E) as (inds & -> & Hall & Hrest).
  assert (rest = []) as ->.
  { destruct rest as [|[k v] rest]; [reflexivity|]. exfalso. destruct (proj1 (Hrest k v) (or_introl eq_refl)) as [H1 H2]. destruct (Hab k v H1) as (a & Ha & K). exact (H2 a Ha K). }
  pose proof Hall as [Hlen Hsel].
  destruct (slice_statement env junk x D (map Sl (map simplify inds)) (map simplify inds) inds) as (y & D' & Hy & Hsl & Hsh & Hget & Hpick & Hh).
  { exact Henv. } { exact Hx. }
  { exists (map simplify inds), [], 0%nat. split; [right; split; reflexivity|]. cbn. rewrite app_nil_r. split; [reflexivity|]. now rewrite map_length. }
  { apply slices_chosen; [exact Hlen|]. intros j a l Ha Hl. apply (Hsel j a l Ha Hl). }
  rewrite Hy. cbn [bind].
  destruct (names_located N (var_axes x) ms) as (jm & -> & Hjm). { intros ax Hin. apply Hm in Hin as (kv & Hkv & Ha). apply (Hms kv ax Hkv). now left. }
  destruct (names_located N (var_axes x) ss) as (js & -> & Hjs). { intros ax Hin. apply Hs in Hin as (pre & kv & post & -> & Ha & _). apply (Hms kv ax); [apply in_app_iff; right; now left|now right]. }
  cbn [bind]. exists y, D', jm, js, inds. split; [reflexivity|]. split; [exact Hall|]. split; [exact Hsl|]. split; [exact Hsh|]. split.
  { apply Hh. apply Forall_forall. intros l Hl. apply In_nth_error in Hl as (j & Hj). destruct (nth_error (var_axes x) j) as [a|] eqn:Ea.
    - apply increasing_distinct. apply (Hsel j a l Ea Hj).
    - exfalso. apply nth_error_None in Ea. assert (nth_error inds j <> None) as K by congruence. apply nth_error_Some in K. lia. }
  split; [exact Hpick|]. split.
  - intros j. rewrite Hjm. split.
    + intros (ax & Hin & Hfa). apply Hm in Hin as (kv & Hkv & Ha). eauto.
    + intros (kv & ax & Hkv & Ha & Hfa). exists ax. split; [apply Hm; eauto|exact Hfa].
  - intros j. rewrite Hjs. split.
    + intros (ax & Hin & Hfa). apply Hs in Hin as (pre & kv & post & E1 & Ha & _ & Hno). exists ax. split; [exact Hfa|]. exists pre, kv, post. auto.
    + intros (ax & Hfa & pre & kv & post & E1 & Ha & Hno). exists ax. split; [|exact Hfa]. apply Hs. exists pre, kv, post. auto.
Qed.
Lemma prefixes_some N axes kw : forall means squeezes new r, prefixes N axes kw means squeezes new = Some r ->
  forall kv ax, In kv kw -> asks N axes "m" kv ax \/ asks N axes "s" kv ax -> axis_name N axes ax.
Proof.
  induction kw as [|[k v] kw IH]; intros means squeezes new r H kv ax Hin Ha; [destruct Hin|]. cbn [prefixes] in H.
  destruct (call_named_total N axes k) as (p & ax0 & Hk). rewrite (proj2 (call_parse N axes k p ax0) Hk) in H.
  destruct ((has_letter "m" p || has_letter "s" p) && negb (has_axis N axes ax0)) eqn:E; [discriminate|].
  destruct Hin as [<-|Hin]; [|exact (IH _ _ _ _ H kv ax Hin Ha)].
  assert (ax = ax0 /\ has_letter "m" p || has_letter "s" p = true) as [-> Hp].
  { destruct Ha as [(p' & Hp' & Hl)|(p' & Hp' & Hl)]; cbn in Hp'; destruct (call_named_unique _ _ _ _ _ _ _ Hk Hp') as [<- <-]; (split; [reflexivity|]); apply has_letter_spec in Hl; rewrite Hl; [reflexivity|apply orb_true_r]. }
  rewrite Hp in E. cbn in E. apply negb_false_iff in E. now apply has_axis_spec.
Qed.
Lemma call_some {V} N env (junk : list Z -> V) (x : var axis V) kw kw' r :
  Forall (full_arrays N) (var_axes x) -> call N env junk x kw = Some r -> Forall2 (strips N (var_axes x)) kw kw' -> NoDup (map fst kw') ->
  (forall k v, In (k, v) kw' -> exists a, In a (var_axes x) /\ about N a k) /\
  (forall kv ax, In kv kw -> asks N (var_axes x) "m" kv ax \/ asks N (var_axes x) "s" kv ax -> axis_name N (var_axes x) ax).
Proof.
  intros Hf H Hst Hnd. unfold call in H. destruct (prefixes N (var_axes x) kw [] [] []) as [[[ms ss] new]|] eqn:E; [|discriminate].
  pose proof (prefixes_some _ _ _ _ _ _ _ E) as Hax. split; [|exact Hax].
  destruct (prefixes_spec N (var_axes x) kw [] [] [] kw' Hax Hst Hnd) as (ms' & ss' & E' & _). rewrite E in E'. injection E' as _ _ ->. cbn [app] in H.
  destruct (get_slices N (var_axes x) kw') as [[sls rest]|] eqn:Eg; [|discriminate]. destruct rest; [|discriminate].
  destruct (get_slices_spec N (var_axes x) Hf kw' _ _ Eg) as (_ & _ & _ & Hrest). intros k v Hin.
  assert (forall a, about N a k \/ ~ about N a k) as Dec.
  { intros a. destruct (named_total N a k) as (p & ax & Hk).
    assert (concerns N a p ax \/ ~ concerns N a p ax) as [Hc|Hc]; [|left; exists p, ax; auto|right; intros (p' & ax' & Hk' & Hc'); destruct (named_unique _ _ _ _ _ _ _ Hk Hk') as [<- <-]; contradiction].
    unfold concerns, values_named. destruct (letter_cases "i" p) as [Hi|Hi]; destruct (alias N a ax).
    - left. now left.
    - right. intros [[_ K]|[K _]]; [discriminate|contradiction].
    - left. right. split; [exact Hi|]. exists (axis_vals a). now left.
    - destruct (auxarray N a ax) as [vals|]; [left; right; split; [exact Hi|exists vals; now right]|right]. intros [[K _]|[_ (vals & [[K _]|[_ K]])]]; [contradiction|discriminate|discriminate]. }
  assert (forall axes', (exists a, In a axes' /\ about N a k) \/ (forall a, In a axes' -> ~ about N a k)) as Dec2.
  { induction axes' as [|a axes' IH]; [right; intros ? []|]. destruct (Dec a) as [Ha|Ha]; [left; exists a; split; [now left|exact Ha]|].
    destruct IH as [(b & Hb & K)|K]; [left; exists b; split; [now right|exact K]|right; intros b [<-|Hb]; auto]. }
  destruct (Dec2 (var_axes x)) as [K|K]; [exact K|]. exfalso. exact (proj2 (Hrest k v) (conj Hin K)).
Qed.
