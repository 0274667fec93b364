(** Smoothing: proofs. *)
From Coq Require Import ZArith List Bool Lia Permutation.
From Verif Require Import TimeSearchModel SortSpec IndexModel IndexSpec IndexProofs ArrModel ArrProofs ViewModel ViewSpec ViewProofs ChunkProofs
     AxisModel AxisSpec AxisProofs VarOpsModel VarOpsSpec VarOpsProofs ReduceModel ReduceSpec LoopProofs RespondProofs NumModel
     StencilModel StencilSpec StencilProofs DiffProofs IntgrProofs ConcatProofs WindowModel WindowProofs LagProofs BlockProofs SmoothModel SmoothSpec.
Import ListNotations.
Open Scope Z_scope.

Lemma last_index_arange lo hi k : last_index (arange lo hi 1) k 0 = if (lo <=? k) && (k <? hi) then Some (k - lo) else None.
Proof.
  destruct (Z.leb_spec lo k), (Z.ltb_spec k hi); cbn [andb].
  - rewrite (last_index_elem _ k (k - lo) 0); [reflexivity|apply NoDup_arange1|apply elem_arange1; lia].
  - apply last_index_None. rewrite In_arange1. lia.
  - apply last_index_None. rewrite In_arange1. lia.
  - apply last_index_None. rewrite In_arange1. lia.
Qed.

Section Along.
Context (s : list Z) (d : nat) (Hd : (d < length s)%nat).
Notation has := (IntgrProofs.has s d).
Lemma set_along_has {V} (a b : arr V) sl lo hi m F G : has a m F -> np_index sl m = Some (arange lo hi 1) -> lo <= hi -> has b (hi - lo) G -> steady_in d G ->
  exists c, set_along a d sl b = Some c /\ has c m (fun p k => if (lo <=? k) && (k <? hi) then G p (k - lo) else F p k).
Proof.
  intros Ha Hi Hlh Hb HG. unfold set_along. rewrite (length_there s d Hd a m F (has_may s d a m F Ha)), Hi. cbn [bind]. rewrite zlen_arange1 by lia.
  destruct Ha as [Ha1 Ha2], Hb as [Hb1 Hb2]. rewrite Ha1, set_at_set.
  destruct (broadcast_same b _ Hb1) as (b' & E1 & E2 & E3). rewrite E1. cbn [bind]. eexists. split; [reflexivity|]. split; [reflexivity|].
  intros p Hp. cbn [val]. rewrite last_index_arange. destruct (inside s d Hd _ _ Hp) as [Hl Hk].
  destruct ((lo <=? nth d p 0) && (nth d p 0 <? hi)) eqn:E.
  - apply andb_prop in E as [C1 C2]. apply Z.leb_le in C1. apply Z.ltb_lt in C2.
    assert (position (set_at s d (hi - lo)) (set_at p d (nth d p 0 - lo))) as Hq.
    { unfold position in *. rewrite <- (set_at_set s d m). apply Forall2_set_both; [exact Hp|lia]. }
    rewrite E3, Hb2 by exact Hq. rewrite HG. f_equal. rewrite nth_set_same by exact Hl. reflexivity.
  - exact (Ha2 p Hp).
Qed.
Lemma get_along_has {V} (a : arr V) sl l m F : has a m F -> steady_in d F -> np_index sl m = Some l -> in_range m l ->
  exists c, get_along a d sl = Some c /\ has c (zlen l) (fun p k => F p (znth l k)).
Proof.
  intros Ha HF Hi Hr. unfold get_along. rewrite (length_there s d Hd a m F (has_may s d a m F Ha)), Hi. cbn [option_map]. eexists. split; [reflexivity|].
  now apply (take_has s d Hd a m F l).
Qed.

Definition extended {V} (F : list Z -> Z -> V) (ml n : Z) (p : list Z) (r : Z) : V :=
  F p (if r <? ml then ml - 1 - r else if ml + n <=? r then 2 * n - 1 - (r - ml) else r - ml).
Lemma extended_steady {V} (F : list Z -> Z -> V) ml n : steady_in d F -> steady_in d (extended F ml n).
Proof. intros H p i j. unfold extended. apply H. Qed.

Lemma np_slice lo hi m : 0 <= lo <= hi -> hi <= m -> np_index (SSlice (Slice (Some lo) (Some hi) None)) m = Some (arange lo hi 1).
Proof.
  intros H1 H2. cbn [np_index]. unfold eff_step, eff_start, eff_stop. cbn [s_start s_stop s_step]. change (1 =? 0) with false. change (0 <? 1) with true. cbv iota.
  unfold limit, from_end. destruct (Z.ltb_spec lo 0), (Z.ltb_spec hi 0); try lia.
  replace (Z.max 0 (Z.min m lo)) with lo by lia. replace (Z.max 0 (Z.min m hi)) with hi by lia. reflexivity.
Qed.
Lemma np_back lo hi m : -1 <= lo <= hi -> hi < m -> 0 <= lo -> 0 <= hi -> np_index (SSlice (Slice (Some hi) (Some lo) (Some (-1)))) m = Some (arange hi lo (-1)).
Proof.
  intros H1 H2 H3 H4. cbn [np_index]. unfold eff_step, eff_start, eff_stop. cbn [s_start s_stop s_step]. change (-1 =? 0) with false. change (0 <? -1) with false. cbv iota.
  unfold limit, from_end. destruct (Z.ltb_spec lo 0), (Z.ltb_spec hi 0); try lia.
  replace (Z.max (-1) (Z.min (m - 1) lo)) with lo by lia. replace (Z.max (-1) (Z.min (m - 1) hi)) with hi by lia. reflexivity.
Qed.
Lemma np_back_neg lo hi m : lo <= hi -> hi < 0 -> -1 <= m + lo -> np_index (SSlice (Slice (Some hi) (Some lo) (Some (-1)))) m = Some (arange (m + hi) (m + lo) (-1)).
Proof.
  intros H1 H2 H3. cbn [np_index]. unfold eff_step, eff_start, eff_stop. cbn [s_start s_stop s_step]. change (-1 =? 0) with false. change (0 <? -1) with false. cbv iota.
  unfold limit, from_end. destruct (Z.ltb_spec lo 0), (Z.ltb_spec hi 0); try lia.
  replace (Z.max (-1) (Z.min (m - 1) (lo + m))) with (m + lo) by lia. replace (Z.max (-1) (Z.min (m - 1) (hi + m))) with (m + hi) by lia. reflexivity.
Qed.
Lemma np_tail k m : 0 < k <= m -> np_index (SSlice (Slice (Some (- k)) None None)) m = Some (arange (m - k) m 1).
Proof.
  intros H. cbn [np_index]. unfold eff_step, eff_start, eff_stop. cbn [s_start s_stop s_step]. change (1 =? 0) with false. change (0 <? 1) with true. cbv iota.
  unfold limit, from_end. destruct (Z.ltb_spec (- k) 0); try lia.
  replace (Z.max 0 (Z.min m (- k + m))) with (m - k) by lia. reflexivity.
Qed.
Lemma arange_down hi n : 0 <= n -> zlen (arange hi (hi - n) (-1)) = n /\ (forall k, 0 <= k < n -> znth (arange hi (hi - n) (-1)) k = hi - k) /\ forall x, In x (arange hi (hi - n) (-1)) -> hi - n < x <= hi.
Proof.
  intros Hn. assert (forall k x, elem (arange hi (hi - n) (-1)) k x <-> 0 <= k < n /\ x = hi - k) as HE by (intros k x; rewrite elem_arange by lia; lia).
  split; [|split].
  - pose proof (zlen_nonneg (arange hi (hi - n) (-1))) as K. destruct (Z.lt_trichotomy (zlen (arange hi (hi - n) (-1))) n) as [H|[H|H]]; [|exact H|].
    + assert (elem (arange hi (hi - n) (-1)) (zlen (arange hi (hi - n) (-1))) (hi - zlen (arange hi (hi - n) (-1)))) as Hx by (apply HE; lia). apply elem_lt in Hx. lia.
    + pose proof (elem_znth (arange hi (hi - n) (-1)) n ltac:(lia)) as Hx. apply HE in Hx. lia.
  - intros k Hk. apply znth_elem. apply HE. auto.
  - intros x Hx. apply In_elem in Hx as [k Hk]. apply HE in Hk. lia.
Qed.

(** the extended block *)
Lemma padded (indata : arr num) M ml mr n F : has indata n F -> steady_in d F -> 0 <= ml <= n -> 0 <= mr <= n -> M = ml + n + mr ->
  exists src, bind (set_along (Arr (set_at (shape indata) d M) (fun _ => zero)) d (SSlice (Slice (Some ml) (Some (M - mr)) None)) indata) (fun src =>
    bind (if 0 <? ml then
            bind (get_along src d (SSlice (Slice (Some (2 * ml - 1)) (Some (ml - 1)) (Some (-1))))) (fun b => set_along src d (SSlice (Slice (Some 0) (Some ml) None)) b)
          else Some src) (fun src =>
    if 0 <? mr then
      bind (get_along src d (SSlice (Slice (Some (- mr - 1)) (Some (- (2 * mr) - 1)) (Some (-1))))) (fun b => set_along src d (SSlice (Slice (Some (- mr)) None None)) b)
    else Some src)) = Some src /\ has src M (extended F ml n).
Proof.
  intros Hin HF Hml Hmr HM.
  assert (has (Arr (set_at (shape indata) d M) (fun _ => zero)) M (fun _ _ => zero)) as H0.
  { destruct Hin as [H1 _]. rewrite H1, set_at_set. split; reflexivity. }
  destruct (set_along_has _ indata (SSlice (Slice (Some ml) (Some (M - mr)) None)) ml (M - mr) M _ F H0) as (src1 & E1 & K1); [apply np_slice; lia|lia| |exact HF|].
  { replace (M - mr - ml) with n by lia. exact Hin. }
  rewrite E1. cbn [bind]. clear H0 E1 Hin.
  set (F1 := fun p k => if (ml <=? k) && (k <? M - mr) then F p (k - ml) else zero) in K1.
  assert (steady_in d F1) as HF1 by (intros p i j; unfold F1; now rewrite HF).
  assert (exists src2, (if 0 <? ml then
            bind (get_along src1 d (SSlice (Slice (Some (2 * ml - 1)) (Some (ml - 1)) (Some (-1))))) (fun b => set_along src1 d (SSlice (Slice (Some 0) (Some ml) None)) b)
          else Some src1) = Some src2 /\ has src2 M (fun p k => if k <? ml then F p (ml - 1 - k) else F1 p k)) as (src2 & E2 & K2).
  { destruct (Z.ltb_spec 0 ml) as [Hpos|Hpos].
    - destruct (arange_down (2 * ml - 1) ml ltac:(lia)) as (A1 & A2 & A3). replace (2 * ml - 1 - ml) with (ml - 1) in A1, A2, A3 by lia.
      destruct (get_along_has src1 (SSlice (Slice (Some (2 * ml - 1)) (Some (ml - 1)) (Some (-1)))) (arange (2 * ml - 1) (ml - 1) (-1)) M F1 K1 HF1) as (b & Eb & Kb).
      + apply np_back; lia.
      + apply Forall_forall. intros z Hz. apply A3 in Hz. lia.
      + rewrite Eb. cbn [bind]. rewrite A1 in Kb.
        destruct (set_along_has src1 b (SSlice (Slice (Some 0) (Some ml) None)) 0 ml M F1 _ K1 ltac:(apply np_slice; lia) ltac:(lia) ltac:(rewrite Z.sub_0_r; exact Kb)) as (c & Ec & Kc).
        { intros p i j. apply HF1. }
        exists c. split; [exact Ec|]. apply (has_ext s d Hd c M _ _ Kc). intros p k Hk. destruct (Z.leb_spec 0 k); [|lia]. cbn [andb].
        destruct (Z.ltb_spec k ml); [|reflexivity]. rewrite Z.sub_0_r, A2 by lia. unfold F1.
        destruct (Z.leb_spec ml (2 * ml - 1 - k)), (Z.ltb_spec (2 * ml - 1 - k) (M - mr)); try lia. cbn [andb]. f_equal. lia.
    - exists src1. split; [reflexivity|]. apply (has_ext s d Hd src1 M _ _ K1). intros p k Hk. destruct (Z.ltb_spec k ml); [lia|reflexivity]. }
  rewrite E2. cbn [bind]. clear E2. set (F2 := fun p k => if k <? ml then F p (ml - 1 - k) else F1 p k) in K2.
  assert (steady_in d F2) as HF2 by (intros p i j; unfold F2; now rewrite HF, HF1).
  destruct (Z.ltb_spec 0 mr) as [Hpos|Hpos].
  - destruct (arange_down (M + (- mr - 1)) mr ltac:(lia)) as (A1 & A2 & A3). replace (M + (- mr - 1) - mr) with (M + (- (2 * mr) - 1)) in A1, A2, A3 by lia.
    destruct (get_along_has src2 (SSlice (Slice (Some (- mr - 1)) (Some (- (2 * mr) - 1)) (Some (-1)))) (arange (M + (- mr - 1)) (M + (- (2 * mr) - 1)) (-1)) M F2 K2 HF2) as (b & Eb & Kb).
    + apply np_back_neg; lia.
    + apply Forall_forall. intros z Hz. apply A3 in Hz. lia.
    + rewrite Eb. cbn [bind]. rewrite A1 in Kb.
      destruct (set_along_has src2 b (SSlice (Slice (Some (- mr)) None None)) (M - mr) M M F2 _ K2 ltac:(apply np_tail; lia) ltac:(lia) ltac:(replace (M - (M - mr)) with mr by lia; exact Kb)) as (c & Ec & Kc).
      { intros p i j. apply HF2. }
      exists c. split; [exact Ec|]. apply (has_ext s d Hd c M _ _ Kc). intros p k Hk. unfold extended. destruct (Z.ltb_spec k M); [|lia]. rewrite andb_true_r.
      destruct (Z.leb_spec (M - mr) k).
      * rewrite A2 by lia. unfold F2, F1. destruct (Z.ltb_spec (M + (- mr - 1) - (k - (M - mr))) ml), (Z.ltb_spec k ml), (Z.leb_spec (ml + n) k); try lia.
        destruct (Z.leb_spec ml (M + (- mr - 1) - (k - (M - mr)))), (Z.ltb_spec (M + (- mr - 1) - (k - (M - mr))) (M - mr)); try lia. cbn [andb]. f_equal. lia.
      * unfold F2, F1. destruct (Z.ltb_spec k ml); [reflexivity|]. destruct (Z.leb_spec (ml + n) k), (Z.leb_spec ml k), (Z.ltb_spec k (M - mr)); try lia. reflexivity.
  - exists src2. split; [reflexivity|]. apply (has_ext s d Hd src2 M _ _ K2). intros p k Hk. unfold F2, F1, extended. destruct (Z.ltb_spec k ml); [reflexivity|].
    destruct (Z.leb_spec (ml + n) k), (Z.leb_spec ml k), (Z.ltb_spec k (M - mr)); try lia. reflexivity.
Qed.

Lemma bind_assoc {A B C} (o : option A) (f : A -> option B) (g : B -> option C) : bind (bind o f) g = bind o (fun a => bind (f a) g).
Proof. now destruct o. Qed.

Lemma all_entries (a : arr num) m F : has a m F -> (forall p k, position s p -> 0 <= k < m -> is_fin (F p k) = true) -> steady_in d F -> (exists n, nth_error s d = Some n /\ 0 < n) ->
  forallb is_fin (entries a) = true.
Proof.
  intros [H1 H2] HF HS (n & Hn & Hpos). apply forallb_forall. intros v Hv. unfold entries in Hv. apply in_map_iff in Hv as (p & <- & Hp). apply in_product in Hp.
  assert (position (set_at s d m) p) as Hpp.
  { rewrite H1 in Hp. unfold position. apply (proj1 (Forall2_map_l _ _ _ _)) in Hp. eapply Forall2_impl; [|exact Hp]. cbv beta. intros z k Hk. apply In_arange1 in Hk. lia. }
  rewrite (H2 p Hpp). destruct (inside s d Hd _ _ Hpp) as [Hl Hk]. rewrite <- (HS p _ 0). apply HF; [|exact Hk].
  apply (position_set_shape s p d n m Hpp Hn). lia.
Qed.

(** one block *)
Lemma block_spec direct junk (indata : arr num) kernel M ml mr n F at_ : has indata n F -> steady_in d F -> 0 <= ml <= n -> 0 <= mr <= n -> M = ml + n + mr ->
  (forall i j, In i at_ -> 0 <= j < zlen kernel -> 0 <= i + (zlen kernel - 1) / 2 - j < M) -> 0 < zlen kernel -> in_range M at_ ->
  (direct = true \/ (forallb is_fin kernel = true /\ (exists m, nth_error s d = Some m /\ 0 < m) /\ forall p k, position s p -> 0 <= k < n -> is_fin (F p k) = true)) ->
  exists b, smooth_block junk direct d kernel M ml mr at_ indata = Some b /\
    has b (zlen at_) (fun p k => np_sum (map (fun j => mul (nth (Z.to_nat j) kernel zero) (extended F ml n p (znth at_ k + (zlen kernel - 1) / 2 - j))) (arange 0 (zlen kernel) 1))).
Proof.
  intros Hin HF Hml Hmr HM Hat HK Hr Hfin. destruct (padded indata M ml mr n F Hin HF Hml Hmr HM) as (src & Es & Ks).
  unfold smooth_block.
  assert (forall (o : option (arr num)) (f g h : arr num -> option (arr num)), bind (bind o (fun a => bind (f a) g)) h = bind o (fun a => bind (f a) (fun b => bind (g b) h))) as Hb by (intros [o|] f g h; cbn; [apply bind_assoc|reflexivity]).
  rewrite <- Hb, Es. cbn [bind]. clear Es Hb.
  pose proof (extended_steady F ml n HF) as HX.
  set (conv := fun p k => np_sum (map (fun j => let r := k + (zlen kernel - 1) / 2 - j in if (0 <=? r) && (r <? M) then mul (nth (Z.to_nat j) kernel zero) (extended F ml n p r) else zero) (arange 0 (zlen kernel) 1))).
  assert (steady_in d conv) as HC by (intros p i j; unfold conv; f_equal; apply map_ext; intros z; now rewrite HX).
  assert (has (convolve_same direct junk src d kernel) M conv) as Kc.
  { unfold convolve_same. assert (direct || (forallb is_fin kernel && forallb is_fin (entries src)) = true) as ->.
    { destruct Hfin as [->|(H1 & H2 & H3)]; [reflexivity|]. rewrite H1, (all_entries src M _ Ks); [now rewrite orb_true_r| |exact HX|exact H2].
      intros p k Hp Hk. unfold extended. apply H3; [exact Hp|]. destruct (Z.ltb_spec k ml); [lia|]. destruct (Z.leb_spec (ml + n) k); lia. }
    pose proof (length_there s d Hd src M _ (has_may s d src M _ Ks)) as Hlen. destruct Ks as [S1 S2]. split; [exact S1|].
    intros p Hp. cbn [val]. destruct (inside s d Hd _ _ Hp) as [Hl Hk]. unfold conv. f_equal. rewrite Hlen.
    assert (combine (arange 0 (zlen kernel) 1) kernel = map (fun j => (j, nth (Z.to_nat j) kernel zero)) (arange 0 (zlen kernel) 1)) as ->.
    { apply list_ext. intros i [j v]. rewrite elem_map. setoid_rewrite elem_arange1. unfold elem. rewrite nth_error_combine. split.
      - intros [H1 H2]. destruct (nth_error (arange 0 (zlen kernel) 1) (Z.to_nat i)) as [j'|] eqn:Ej; [|discriminate]. destruct (nth_error kernel (Z.to_nat i)) as [v'|] eqn:Ev; [|discriminate].
        injection H2 as -> ->. assert (elem (arange 0 (zlen kernel) 1) i j) as K by (split; assumption). apply elem_arange1 in K. exists j. split; [exact K|].
        f_equal. replace j with i by lia. symmetry. now apply nth_error_nth.
      - intros (x & [-> Hx] & E). injection E as -> ->. split; [lia|]. unfold zlen in Hx. assert (elem (arange 0 (zlen kernel) 1) i (0 + i)) as [_ K] by (apply elem_arange1; unfold zlen; lia).
        rewrite K. rewrite (nth_error_nth' kernel zero) by lia. reflexivity. }
    rewrite map_map. apply map_ext_in. intros j Hj. cbn [fst snd]. apply In_arange1 in Hj. cbv zeta.
    destruct ((0 <=? nth d p 0 + (zlen kernel - 1) / 2 - j) && (nth d p 0 + (zlen kernel - 1) / 2 - j <? M)) eqn:E; [|reflexivity].
    apply andb_prop in E as [C1 C2]. apply Z.leb_le in C1. apply Z.ltb_lt in C2. f_equal.
    rewrite S2; [|exact (position_set _ p d M _ Hp (nth_there s d Hd M) (conj C1 C2))]. rewrite HX. f_equal. now rewrite nth_set_same. }
  destruct (get_along_has _ (SList at_) at_ M conv Kc HC) as (b & Eb & Kb).
  { cbn [np_index]. assert (forallb (fun i => (- M <=? i) && (i <? M)) at_ = true) as ->.
    { apply forallb_forall. intros i Hi. pose proof (proj1 (Forall_forall _ _) Hr i Hi) as K. cbv beta in K. apply andb_true_intro. split; [apply Z.leb_le|apply Z.ltb_lt]; lia. }
    f_equal. rewrite <- (map_id at_) at 2. apply map_ext_in. intros i Hi. pose proof (proj1 (Forall_forall _ _) Hr i Hi) as K. cbv beta in K. unfold from_end. destruct (Z.ltb_spec i 0); lia. }
  { exact Hr. }
  exists b. split; [exact Eb|]. apply (has_ext s d Hd b (zlen at_) _ _ Kb). intros p k Hk. unfold conv. f_equal. apply map_ext_in. intros j Hj. apply In_arange1 in Hj. cbv zeta.
  assert (In (znth at_ k) at_) as Hi by (eapply elem_In, elem_znth; lia).
  pose proof (Hat _ j Hi Hj) as K. destruct (Z.leb_spec 0 (znth at_ k + (zlen kernel - 1) / 2 - j)), (Z.ltb_spec (znth at_ k + (zlen kernel - 1) / 2 - j) M); try lia. reflexivity.
Qed.
End Along.
