(** The individual reductions. *)
From Coq Require Import ZArith List Bool Lia Permutation QArith_base Qcanon Field.
From Verif Require Import SortSpec IndexModel IndexSpec IndexProofs ArrModel ViewModel ViewSpec ArrProofs ViewProofs AxisModel AxisSpec AxisProofs
  VarOpsModel VarOpsSpec VarOpsProofs ChunkProofs NumModel NumProofs ReduceModel ReduceSpec FibreProofs LoopProofs RespondProofs ReduceProofs.
Import ListNotations.
Open Scope Z_scope.

(** *** the number of elements of a fibre *)
Lemma zlen_product {A} (ls : list (list A)) : zlen (product ls) = prod (map zlen ls).
Proof.
  induction ls as [|l ls IH]; [reflexivity|]. rewrite product_cons. cbn [map]. change (prod (zlen l :: map zlen ls)) with (zlen l * prod (map zlen ls)).
  induction l as [|x l IHl]; [reflexivity|]. cbn [flat_map]. rewrite zlen_cons. unfold zlen in *. rewrite app_length, map_length, Nat2Z.inj_add, IHl, IH. lia.
Qed.

Lemma fibl_sizes : forall g s k, length g = length s -> position (dropped g s) k ->
  prod (map zlen (fibl g (map (fun n => arange 0 n 1) s) k)) = prod (map (fun i => Z.max 0 (nth i s 0)) (desc g)).
Proof.
  assert (forall l l', prod (l ++ l') = prod l * prod l') as Happ.
  { unfold prod. induction l as [|a l IH]; intros l'; cbn [app fold_right]; [destruct (fold_right Z.mul 1 l'); reflexivity|]. rewrite IH. ring. }
  induction g as [|[] g IH]; intros [|n s] k H Hk; cbn [length] in H; try lia; cbn [map fibl dropped desc] in *.
  - reflexivity.
  - rewrite map_app, Happ, map_map. cbn [map nth]. change (prod (zlen (arange 0 n 1) :: ?l)) with (zlen (arange 0 n 1) * prod l).
    rewrite IH by (auto; lia). unfold prod at 3. cbn [fold_right].
    assert (zlen (arange 0 n 1) = Z.max 0 n) as ->; [|cbn [nth]; lia].
    destruct (Z_le_gt_dec 0 n); [rewrite zlen_arange by lia; lia|]. assert (Z.max 0 n = 0) as -> by lia.
    unfold arange. cbv zeta. change (0 <? 1) with true. cbv iota. unfold zlen. rewrite map_length, seq_length. assert ((n - 0 + 1 - 1) / 1 <= 0) as K by (rewrite Z.div_1_r; lia). lia.
  - inversion Hk as [|? x ? k' Hx Hk']; subst. cbn [map]. rewrite app_nil_r, map_map. cbn [nth].
    change (prod (zlen [x] :: ?l)) with (zlen [x] * prod l). rewrite IH by (auto; lia). unfold zlen at 1. cbn [length]. lia.
Qed.

Lemma desc_NoDup g : NoDup (desc g).
Proof.
  pose proof (desc_sorted g) as H. induction H as [|x l _ IH H]; constructor; [|exact IH].
  intros K. rewrite Forall_forall in H. specialize (H x K). lia.
Qed.
Lemma desc_perm n indices : NoDup indices -> Forall (fun i => (i < n)%nat) indices -> Permutation indices (desc (gone_axes n indices)).
Proof.
  intros H1 H2. apply NoDup_Permutation; [exact H1|apply desc_NoDup|]. intros i. rewrite In_desc, nth_error_gone. split; intros H.
  - rewrite Forall_forall in H2. destruct (Nat.ltb_spec i n); [|specialize (H2 i H); lia]. f_equal. now apply existsb_In.
  - destruct (Nat.ltb i n); [|discriminate]. injection H as H. now apply existsb_In.
Qed.
Lemma prod_perm l l' : Permutation l l' -> prod l = prod l'.
Proof. unfold prod. induction 1; cbn; lia. Qed.

Lemma axis_len_nonneg a : 0 <= axis_len a.
Proof. destruct a; apply zlen_nonneg. Qed.

Lemma fibre_count (axes : list axis) indices k : NoDup indices -> Forall (fun i => (i < length axes)%nat) indices ->
  position (dropped (gone_axes (length axes) indices) (map axis_len axes)) k ->
  zlen (fibre (gone_axes (length axes) indices) (map axis_len axes) k) = count_reduced axes indices.
Proof.
  intros H1 H2 Hk. rewrite fibre_fibl by (rewrite ?length_gone, ?map_length; auto). rewrite zlen_product, fibl_sizes by (rewrite ?length_gone, ?map_length; auto).
  unfold count_reduced. rewrite (prod_perm _ _ (Permutation_map _ (desc_perm _ _ H1 H2))). f_equal. apply map_ext. intros i.
  destruct (nth_error axes i) as [a|] eqn:E.
  - erewrite nth_error_nth by (rewrite nth_error_map, E; reflexivity). pose proof (axis_len_nonneg a). lia.
  - apply nth_error_None in E. rewrite nth_overflow by (rewrite map_length; lia). reflexivity.
Qed.

(** *** properties of the aggregates *)
Lemma sum_class l : (forall v, In v l -> is_nan v = false) -> summable l ->
  is_nan (np_sum l) = false /\ (np_sum l = PInf -> In PInf l) /\ (np_sum l = MInf -> In MInf l).
Proof.
  induction l as [|x l IH]; intros Hn Hs; [cbn; repeat split; discriminate|].
  destruct IH as (A & B & C); [intros; apply Hn; now right|intros [K1 K2]; apply Hs; split; now right|].
  change (np_sum (x :: l)) with (add x (np_sum l)). pose proof (Hn x (or_introl eq_refl)) as Hx.
  destruct x, (np_sum l); cbn in *; try discriminate; repeat split; try discriminate; auto;
  exfalso; apply Hs; split; cbn; auto.
Qed.
Lemma n2z_not_nan v : is_nan (nan_to_zero v) = false.
Proof. now destruct v. Qed.
Lemma n2z_id v : is_nan v = false -> nan_to_zero v = v.
Proof. now destruct v. Qed.
Lemma summable_n2z l : summable l -> summable (map nan_to_zero l).
Proof.
  intros H [K1 K2]. apply H. apply in_map_iff in K1 as (u & Eu & Hu), K2 as (v & Ev & Hv). destruct u, v; try discriminate. auto.
Qed.
Lemma nansum_not_nan l : summable l -> is_nan (np_nansum l) = false.
Proof.
  intros H. apply sum_class; [|now apply summable_n2z]. intros v Hv. apply in_map_iff in Hv as (u & <- & _). apply n2z_not_nan.
Qed.
Lemma summable_sub l l' : (forall v, In v l -> In v l') -> summable l' -> summable l.
Proof. intros H Hs [K1 K2]. apply Hs. auto. Qed.
Lemma np_sum_concat ls : np_sum (concat ls) = np_sum (map np_sum ls).
Proof. exact (total_concat add zero add_monoid ls). Qed.
Lemma np_nansum_concat ls : np_nansum (concat ls) = np_sum (map np_nansum ls).
Proof. unfold np_nansum. rewrite concat_map, np_sum_concat, map_map. reflexivity. Qed.
Lemma np_sum_app l l' : np_sum (l ++ l') = add (np_sum l) (np_sum l').
Proof. exact (total_app add zero add_monoid l l'). Qed.
Lemma np_nansum_app l l' : np_nansum (l ++ l') = add (np_nansum l) (np_nansum l').
Proof. unfold np_nansum. rewrite map_app. apply np_sum_app. Qed.
Lemma np_sum_perm l l' : Permutation l l' -> np_sum l = np_sum l'.
Proof. exact (total_perm add zero add_monoid l l'). Qed.
Lemma np_nansum_perm l l' : Permutation l l' -> np_nansum l = np_nansum l'.
Proof. intros H. apply np_sum_perm. now apply Permutation_map. Qed.

(** block and loop relations of the NaN-ignoring sums *)
Definition Rnan (l : list num) (w : num) : Prop := summable l -> nan_to_zero w = np_nansum l.
Definition Onan (l : list num) (w : num) : Prop := summable l -> nan_to_zero w = np_nansum l /\ (l <> [] -> is_nan w = false).
Lemma Rnan_one v : Rnan [v] v.
Proof. intros _. unfold np_nansum. cbn. now rewrite add_0_r. Qed.
Lemma Rnan_cat ls vs : Forall2 Rnan ls vs -> Rnan (concat ls) (np_nansum vs).
Proof.
  intros H Hs. assert (np_nansum vs = np_nansum (concat ls)) as E.
  { rewrite np_nansum_concat. unfold np_nansum at 1. f_equal.
    induction H as [|l v ls vs Hlv H IH]; [reflexivity|]. cbn [map]. f_equal.
    - apply Hlv. eapply summable_sub; [|exact Hs]. intros u Hu. cbn. apply in_or_app. auto.
    - apply IH. eapply summable_sub; [|exact Hs]. intros u Hu. cbn. apply in_or_app. auto. }
  rewrite E. apply n2z_id. now apply nansum_not_nan.
Qed.
Lemma Onan_perm l l' w : Permutation l l' -> Onan l w -> Onan l' w.
Proof.
  intros Hp H Hs. destruct H as [H1 H2].
  { eapply summable_sub; [|exact Hs]. intros v. apply Permutation_in. exact Hp. }
  split; [now rewrite <- (np_nansum_perm _ _ Hp)|]. intros Hn. apply H2. intros ->. apply Permutation_nil in Hp. congruence.
Qed.
Lemma Onan_init : Onan [] NaN.
Proof. intros _. split; [reflexivity|congruence]. Qed.
Lemma Onan_comb l1 w l2 b : Onan l1 w -> l2 <> [] -> Rnan l2 b -> Onan (l1 ++ l2) (np_nansum [w; b]).
Proof.
  intros H1 _ H2 Hs. destruct H1 as [H1 _].
  { eapply summable_sub; [|exact Hs]. intros v Hv. apply in_or_app. auto. }
  assert (summable l2) as Hs2 by (eapply summable_sub; [|exact Hs]; intros v Hv; apply in_or_app; auto).
  specialize (H2 Hs2). assert (np_nansum [w; b] = np_nansum (l1 ++ l2)) as E.
  { rewrite np_nansum_app, <- H1, <- H2. unfold np_nansum. cbn. now rewrite add_0_r. }
  pose proof (nansum_not_nan _ Hs) as Hn. rewrite E. split; [now apply n2z_id|auto].
Qed.

(** *** minima and maxima *)
Lemma is_nan_true v : is_nan v = true -> v = NaN.
Proof. destruct v; now try discriminate. Qed.
Lemma amin_least l : l <> [] -> least l (np_amin l).
Proof.
  intros Hne. unfold least. destruct (existsb is_nan l) eqn:E.
  - left. apply existsb_exists in E as (v & Hv & E). apply is_nan_true in E. subst v. split; [exact Hv|].
    induction l as [|x l IH]; [destruct Hv|]. change (np_amin (x :: l)) with (minimum x (np_amin l)). destruct Hv as [->|Hv]; [reflexivity|].
    rewrite IH; [apply minimum_nan_r| |exact Hv]. intros ->. destruct Hv.
  - right. assert (forall v, In v l -> is_nan v = false) as Hn.
    { intros v Hv. apply not_true_iff_false. intros K. apply not_true_iff_false in E. apply E. apply existsb_exists. eauto. }
    split; [intros K; now apply Hn in K|].
    assert (is_nan (np_amin l) = false /\ (forall v, In v l -> le (np_amin l) v) /\ (In (np_amin l) l \/ np_amin l = PInf)) as (A & B & C).
    { clear Hne E. induction l as [|x l IH]; [split; [reflexivity|split; [intros ? []|now right]]|]. change (np_amin (x :: l)) with (minimum x (np_amin l)).
      destruct IH as (A & B & C); [intros; apply Hn; now right|]. pose proof (Hn x (or_introl eq_refl)) as Hx.
      destruct (minimum_spec x (np_amin l) Hx A) as (K1 & K2 & K3 & K4). split; [exact K1|]. split.
      - intros v [<-|Hv]; [exact K2|]. eapply le_trans; [exact K3|auto].
      - destruct K4 as [-> | ->]; [left; now left|]. destruct C as [C|C]; [left; now right|now right]. }
    split; [|intros v Hv; now destruct (B v Hv) as (_ & _ & K)].
    destruct C as [C|C]; [exact C|]. destruct l as [|x l]; [congruence|]. left. rewrite C in *. destruct (B x (or_introl eq_refl)) as (_ & _ & K).
    pose proof (Hn x (or_introl eq_refl)). destruct x; try discriminate; reflexivity.
Qed.
Lemma amax_neg l : np_amax l = neg (np_amin (map neg l)).
Proof. induction l as [|x l IH]; [reflexivity|]. change (np_amax (x :: l)) with (maximum x (np_amax l)). rewrite IH, maximum_neg, neg_neg. reflexivity. Qed.
Lemma ltb_neg x y : ltb (neg x) (neg y) = ltb y x.
Proof.
  destruct x, y; try reflexivity. cbn. destruct (qc_ltb q0 q) eqn:E.
  - apply qc_ltb_lt in E. apply qc_ltb_lt. apply Qcnot_le_lt. intros K. apply Qcopp_le_compat in K. rewrite !Qcopp_involutive in K.
    now apply (Qclt_not_le _ _ E).
  - apply qc_ltb_ge in E. apply qc_ltb_ge. now apply Qcopp_le_compat.
Qed.
Lemma In_neg l v : In v (map neg l) <-> In (neg v) l.
Proof.
  rewrite in_map_iff. split; [intros (u & <- & H); now rewrite neg_neg|]. intros H. exists (neg v). now rewrite neg_neg.
Qed.
Lemma amax_greatest l : l <> [] -> greatest l (np_amax l).
Proof.
  intros Hne. rewrite amax_neg. destruct (amin_least (map neg l)) as [[H E]|(H1 & H2 & H3)]; [now destruct l| |].
  - left. rewrite E. split; [|reflexivity]. now apply In_neg in H.
  - right. rewrite In_neg in H1, H2. split; [exact H1|]. split; [exact H2|]. intros v Hv. rewrite <- (neg_neg v), ltb_neg. apply H3. rewrite In_neg, neg_neg. exact Hv.
Qed.
Lemma nanmin_filter l : np_nanmin l = np_nanmin (not_nans l).
Proof.
  induction l as [|x l IH]; [reflexivity|]. change (np_nanmin (x :: l)) with (fmin x (np_nanmin l)). rewrite IH. cbn [not_nans filter].
  destruct (nan_case x) as [->|A]; [reflexivity|]. rewrite A. reflexivity.
Qed.
Lemma nanmin_amin l : l <> [] -> (forall v, In v l -> is_nan v = false) -> np_nanmin l = np_amin l.
Proof.
  intros Hne Hn. induction l as [|x l IH]; [congruence|]. change (np_nanmin (x :: l)) with (fmin x (np_nanmin l)). change (np_amin (x :: l)) with (minimum x (np_amin l)).
  destruct l as [|y l]; [cbn; now rewrite fmin_nan_r, minimum_inf_r|]. rewrite IH by (congruence || (intros; apply Hn; now right)).
  apply fmin_min; [apply Hn; now left|]. destruct (amin_least (y :: l)) as [[H _]|(_ & H & _)]; [discriminate| |].
  - specialize (Hn NaN (or_intror H)). discriminate.
  - apply Hn. now right.
Qed.
Lemma In_not_nans l v : In v (not_nans l) <-> In v l /\ is_nan v = false.
Proof. unfold not_nans. rewrite filter_In. destruct (is_nan v); cbn; intuition congruence. Qed.
Lemma nanmin_least l : nan_least l (np_nanmin l).
Proof.
  unfold nan_least. rewrite nanmin_filter. destruct (not_nans l) as [|x t] eqn:E; [left; split; reflexivity|right]. rewrite <- E.
  assert (forall v, In v (not_nans l) -> is_nan v = false) as Hn by (intros v Hv; apply In_not_nans in Hv; tauto).
  rewrite nanmin_amin by (auto; congruence). destruct (amin_least (not_nans l)) as [[H _]|(_ & H2 & H3)]; [congruence| |].
  - apply Hn in H. discriminate.
  - split; assumption.
Qed.
Lemma nanmax_neg l : np_nanmax l = neg (np_nanmin (map neg l)).
Proof. induction l as [|x l IH]; [reflexivity|]. change (np_nanmax (x :: l)) with (fmax x (np_nanmax l)). rewrite IH, fmax_neg, neg_neg. reflexivity. Qed.
Lemma not_nans_neg l : not_nans (map neg l) = map neg (not_nans l).
Proof. induction l as [|x l IH]; [reflexivity|]. unfold not_nans in *. destruct x; cbn [map neg filter is_nan negb]; now rewrite IH. Qed.
Lemma nanmax_greatest l : nan_greatest l (np_nanmax l).
Proof.
  rewrite nanmax_neg. destruct (nanmin_least (map neg l)) as [[H E]|(H2 & H3)]; rewrite not_nans_neg in *.
  - left. rewrite E. split; [now destruct (not_nans l)|reflexivity].
  - right. rewrite In_neg in H2. split; [exact H2|]. intros v Hv. rewrite <- (neg_neg v), ltb_neg. apply H3. rewrite In_neg, neg_neg. exact Hv.
Qed.

Lemma float_sum_eq l : np_sum l = float_sum l.
Proof.
  unfold float_sum. assert (forall a, fold_left add l a = add a (np_sum l)) as H.
  { induction l as [|x l IH]; intros a; [cbn; now rewrite add_0_r|]. cbn [fold_left]. rewrite IH. change (np_sum (x :: l)) with (add x (np_sum l)). now rewrite add_assoc. }
  rewrite H. now rewrite add_0_l.
Qed.

Lemma zip_to_spec {A B C} (f : A -> B -> C) (a : arr A) (b : arr B) s Fa Fb : array_is a s Fa -> array_is b s Fb ->
  exists r, zip_to f a b = Some r /\ array_is r s (fun p => f (Fa p) (Fb p)).
Proof.
  intros [Sa Va] [Sb Vb]. unfold zip_to. rewrite Sa. destruct (broadcast_same b s Sb) as (b' & -> & _ & Hb'). eexists. split; [reflexivity|].
  split; [reflexivity|]. intros p Hp. cbn [val]. now rewrite Va, Hb', Vb.
Qed.

Lemma map_arr_spec {A B} (f : A -> B) (a : arr A) s F : array_is a s F -> array_is (map_arr f a) s (fun p => f (F p)).
Proof. intros [Sa Va]. split; [exact Sa|]. intros p Hp. cbn. now rewrite Va. Qed.

Section Kinds.
Context (env : axenv) (Henv : env_ok env) (MAX : Z) (HMAX : 1 <= MAX).
Section Vars.
Context {V U : Type} (x : var axis V) (D : list Z -> U) (indices : list nat).
Notation K := (kept_axes (var_axes x) indices).
Notation G := (gone_axes (length (var_axes x)) indices).
Definition fib (k : list Z) : list U := map D (fibre G (var_shape x) k).

Definition answer {W} (f : view axis -> option (arr W)) (F : list Z -> W) : Prop :=
  forall L, Forall2 selection K L -> exists r, f (view_of_inds K L) = Some r /\ array_is r (map zlen L) (fun p => F (gather L p)).
Definition relates {W} (f : view axis -> option (arr W)) (P : list U -> W -> Prop) : Prop :=
  exists F, answer f F /\ forall k, position (dropped G (var_shape x)) k -> P (fib k) (F k).

Lemma selection_position L p : Forall2 selection K L -> position (map zlen L) p -> position (dropped G (var_shape x)) (gather L p).
Proof.
  intros HL Hp. apply gather_position with (ns := dropped G (var_shape x)); [|exact Hp]. unfold var_shape. rewrite dropped_map. apply Forall2_map_l.
  rewrite kept_dropped in HL. eapply Forall2_impl; [|exact HL]. intros a l (_ & H & _). exact H.
Qed.
Lemma answer_ext {W} f (F F' : list Z -> W) : answer f F -> (forall k, position (dropped G (var_shape x)) k -> F k = F' k) -> answer f F'.
Proof.
  intros H E L HL. destruct (H L HL) as (r & Hr & Hs & Hv). exists r. split; [exact Hr|]. split; [exact Hs|].
  intros p Hp. rewrite Hv by exact Hp. apply E. eapply selection_position; eassumption.
Qed.

Lemma separate_dropped axes g : separate axes -> separate (dropped g axes).
Proof.
  intros H i j a b Ha Hb Hij. apply dropped_nth in Ha as (i' & Gi & Ha & <-). apply dropped_nth in Hb as (j' & Gj & Hb & <-).
  refine (H i' j' a b Ha Hb _). intros ->. now apply Hij.
Qed.

Lemma made {W} (f : view axis -> option (arr W)) P : separate (var_axes x) -> reducible x indices -> relates f P ->
  exists y, reduced_var x indices f = Some y /\ reduces_to env x D indices y P.
Proof.
  intros Hsep (Hne & Hnd & Hlen) (F & HF & HP). unfold reduced_var. destruct indices as [|i0 is] eqn:Ei; [congruence|]. rewrite <- Ei in *.
  assert (existsb (fun i => nth i (map axis_len (var_axes x)) 0 =? 0) indices = false) as ->.
  { apply not_true_iff_false. intros E. apply existsb_exists in E as (i & Hi & E%Z.eqb_eq). rewrite Forall_forall in Hlen.
    destruct (Hlen i Hi) as (a & Ha & Hp). erewrite nth_error_nth in E by (rewrite nth_error_map, Ha; reflexivity). lia. }
  eexists. split; [reflexivity|]. split; [cbn [var_axes]; apply kept_dropped|]. exists F.
  assert (responds env (Var K (GetView f)) F) as HR.
  { split; cbn [var_axes var_source]; [rewrite kept_dropped; now apply separate_dropped|exact HF]. }
  split; [exact HR|]. split; [intros junk; now apply (responds_delivers env Henv junk)|].
  intros k Hk. apply HP. unfold var_shape in *. cbn [var_axes] in Hk. rewrite kept_dropped in Hk. now rewrite dropped_map.
Qed.
End Vars.

Section Num.
Context (junk : list Z -> num) (x : var axis num) (D : list Z -> num) (Hx : responds env x D)
        (Hgood : Forall good_axis (var_axes x)) (indices : list nat) (Hred : reducible x indices).
Notation K := (kept_axes (var_axes x) indices).
Notation G := (gone_axes (length (var_axes x)) indices).
Notation fibx := (fib x D indices).

Lemma idx_nd : NoDup indices.
Proof. apply Hred. Qed.
Lemma idx_lt : Forall (fun i => (i < length (var_axes x))%nat) indices.
Proof. destruct Hred as (_ & _ & H). eapply Forall_impl; [|exact H]. intros i (a & Ha & _). apply nth_error_Some. congruence. Qed.
Lemma idx_pos i a : In i indices -> nth_error (var_axes x) i = Some a -> 0 < axis_len a.
Proof. destruct Hred as (_ & _ & H). rewrite Forall_forall in H. intros Hi Ha. destruct (H i Hi) as (b & Hb & Hp). congruence. Qed.

Lemma fibre_ne k : position (dropped G (var_shape x)) k -> fibx k <> [].
Proof.
  intros Hk E. apply (f_equal (@length _)) in E. unfold fib in E. rewrite map_length in E. cbn in E.
  rewrite fibre_fibl in E by (unfold var_shape; rewrite ?length_gone, ?map_length; auto).
  apply length_zero_iff_nil in E. revert E. apply fibl_ne.
  - apply Forall_forall. intros l Hl. unfold var_shape in Hl. rewrite map_map in Hl. apply in_map_iff in Hl as (a & <- & Ha).
    intros E. apply In_nth_error in Ha as [i Ha].
    assert (0 < axis_len a); [|pose proof (zlen_arange (axis_len a) ltac:(lia)) as Kz; rewrite E in Kz; cbn in Kz; lia].
    destruct (nth_error G i) as [[]|] eqn:Eg.
    + apply (idx_pos i a); [|exact Ha]. rewrite nth_error_gone in Eg. destruct (Nat.ltb i (length (var_axes x))); [|discriminate]. injection Eg as Eg. now apply existsb_In.
    + pose proof (nth_error_dropped G (var_shape x) i Eg) as K1. unfold var_shape in K1 at 2. rewrite nth_error_map, Ha in K1. cbn in K1.
      destruct (nth_error k (rank G i)) as [z|] eqn:Ez.
      * pose proof (Forall2_nth_error _ _ _ _ _ _ Hk K1 Ez) as Hz. cbn in Hz. lia.
      * apply nth_error_None in Ez. pose proof (Forall2_len _ _ _ Hk). assert (rank G i < length (dropped G (var_shape x)))%nat by (apply nth_error_Some; congruence). lia.
    + apply nth_error_None in Eg. rewrite length_gone in Eg. assert (i < length (var_axes x))%nat by (apply nth_error_Some; congruence). lia.
  - unfold var_shape. now rewrite length_gone, !map_length.
  - pose proof (Forall2_len _ _ _ Hk) as Hl. rewrite <- Hl. rewrite dropped_map. now rewrite map_length.
Qed.

Lemma monoid_answer (op : num -> num -> num) e (M : cmonoid op e) (agg : list num -> num) pre block comb :
  (forall l, agg l = fold_right op e l) -> (forall w b, comb w b = op w b) ->
  (forall a, block a = Some (np_reduce agg (map_arr pre a) indices)) ->
  answer x indices (fun v => accumulate1 env junk MAX x v e block comb) (fun k => fold_right op e (map pre (fibx k))).
Proof.
  intros Hagg Hcomb Hblock L HL.
  destruct (accumulate1_view env Henv junk MAX HMAX x D Hx Hgood indices idx_nd idx_lt idx_pos agg pre block e comb
    (fun l w => w = fold_right op e l) (fun l w => w = fold_right op e l)) with (L := L) as (r & Hr & Hs & Hv); auto.
  - intros v. cbn. symmetry. apply (op_unit _ _ M).
  - intros ls vs H. rewrite Hagg. transitivity (fold_right op e (map (fold_right op e) ls)).
    + f_equal. induction H as [|l v ls vs Hl _ IH]; [reflexivity|]. cbn [map]. now rewrite Hl, IH.
    + symmetry. apply (total_concat op e M).
  - intros l l' w Hp ->. now apply (total_perm op e M).
  - intros l1 w l2 b -> _ ->. rewrite Hcomb. symmetry. apply (total_app op e M).
  - exists r. split; [exact Hr|]. split; [exact Hs|]. intros p Hp. rewrite (Hv p Hp). unfold fib. now rewrite map_map.
Qed.

Lemma map_arr_id {A} (a : arr A) : a = map_arr (fun v => v) a.
Proof. now destruct a. Qed.

Lemma sum_answer : answer x indices (sum_view env junk MAX x indices) (fun k => np_sum (fibx k)).
Proof.
  pose proof (monoid_answer add zero add_monoid np_sum (fun v => v) (fun a => Some (np_reduce np_sum a indices)) add) as H.
  eapply answer_ext; [apply H|]; try reflexivity; intros; [now rewrite <- map_arr_id|cbv beta; now rewrite map_id].
Qed.
Lemma min_answer : answer x indices (min_view env junk MAX x indices) (fun k => np_amin (fibx k)).
Proof.
  pose proof (monoid_answer minimum PInf min_monoid np_amin (fun v => v) (fun a => Some (np_reduce np_amin a indices)) minimum) as H.
  eapply answer_ext; [apply H|]; try reflexivity; intros; [now rewrite <- map_arr_id|cbv beta; now rewrite map_id].
Qed.
Lemma max_answer : answer x indices (max_view env junk MAX x indices) (fun k => np_amax (fibx k)).
Proof.
  pose proof (monoid_answer maximum MInf max_monoid np_amax (fun v => v) (fun a => Some (np_reduce np_amax a indices)) maximum) as H.
  eapply answer_ext; [apply H|]; try reflexivity; intros; [now rewrite <- map_arr_id|cbv beta; now rewrite map_id].
Qed.
Lemma nanmin_answer : answer x indices (nanmin_view env junk MAX x indices) (fun k => np_nanmin (fibx k)).
Proof.
  pose proof (monoid_answer fmin NaN fmin_monoid np_nanmin (fun v => v) (fun a => Some (np_reduce np_nanmin a indices)) (fun o b => np_nanmin [o; b])) as H.
  eapply answer_ext; [apply H|]; try reflexivity; intros; [unfold np_nanmin; cbn; now rewrite fmin_nan_r|now rewrite <- map_arr_id|cbv beta; now rewrite map_id].
Qed.
Lemma nanmax_answer : answer x indices (nanmax_view env junk MAX x indices) (fun k => np_nanmax (fibx k)).
Proof.
  pose proof (monoid_answer fmax NaN fmax_monoid np_nanmax (fun v => v) (fun a => Some (np_reduce np_nanmax a indices)) (fun o b => np_nanmax [o; b])) as H.
  eapply answer_ext; [apply H|]; try reflexivity; intros; [unfold np_nanmax; cbn; now rewrite fmax_nan_r|now rewrite <- map_arr_id|cbv beta; now rewrite map_id].
Qed.
Lemma sumsq_answer : answer x indices (sumsq_view env junk MAX x indices) (fun k => np_sum (map (fun v => mul v v) (fibx k))).
Proof.
  pose proof (monoid_answer add zero add_monoid np_sum (fun v => mul v v) (fun a => Some (np_reduce np_sum (map_arr (fun x => mul x x) a) indices)) add) as H.
  eapply answer_ext; [apply H|]; reflexivity.
Qed.

Lemma nan_answer pre block :
  (forall k, position (dropped G (var_shape x)) k -> summable (map pre (fibx k))) ->
  (forall a, block a = Some (np_reduce np_nansum (map_arr pre a) indices)) ->
  answer x indices (fun v => accumulate1 env junk MAX x v NaN block (fun o b => np_nansum [o; b])) (fun k => np_nansum (map pre (fibx k))).
Proof.
  intros Hsum Hblock L HL.
  destruct (accumulate1_view env Henv junk MAX HMAX x D Hx Hgood indices idx_nd idx_lt idx_pos np_nansum pre block NaN (fun o b => np_nansum [o; b])
    Rnan Onan Rnan_one Rnan_cat Onan_perm Onan_init Onan_comb Hblock L HL) as (r & Hr & Hs & Hv).
  exists r. split; [exact Hr|]. split; [exact Hs|]. intros p Hp. pose proof (selection_position x indices L p HL Hp) as Hk.
  specialize (Hv p Hp). specialize (Hsum _ Hk). unfold fib in *. rewrite map_map in *. destruct (Hv Hsum) as [H1 H2].
  rewrite <- H1. symmetry. apply n2z_id. apply H2. pose proof (fibre_ne _ Hk) as Hne. unfold fib in Hne. now destruct (fibre _ _ _).
Qed.
Lemma nansum_answer : (forall k, position (dropped G (var_shape x)) k -> summable (fibx k)) ->
  answer x indices (nansum_view env junk MAX x indices) (fun k => np_nansum (fibx k)).
Proof.
  intros H. pose proof (nan_answer (fun v => v) (fun a => Some (np_reduce np_nansum a indices))) as HA.
  eapply answer_ext; [apply HA|]; intros; [cbv beta; rewrite map_id; auto|now rewrite <- map_arr_id|cbv beta; now rewrite map_id].
Qed.
End Num.
End Kinds.
