(** Proofs for C37. *)
From Coq Require Import ZArith List Bool Lia QArith_base Qcanon.
From Verif Require Import SortSpec IndexModel IndexSpec IndexProofs ArrModel ArrProofs ViewModel ViewSpec ViewProofs ChunkProofs
     AxisModel AxisSpec AxisProofs VarOpsModel VarOpsSpec VarOpsProofs ReduceModel ReduceSpec LoopProofs RespondProofs UfuncModel UfuncView NumModel StencilModel StencilSpec StencilProofs DiffProofs DerivProofs.
Import ListNotations.
Open Scope Z_scope.

(** *** ranges *)
Lemma arange_snoc s e : s <= e -> arange s (e + 1) 1 = arange s e 1 ++ [e].
Proof.
  intros H. unfold arange. cbn [Z.ltb Z.compare]. rewrite !Z.div_1_r. replace (Z.to_nat (e + 1 - s + 1 - 1)) with (Z.to_nat (e - s + 1 - 1) + 1)%nat by lia.
  rewrite seq_app, map_app. f_equal. cbn [seq map]. f_equal. lia.
Qed.
Lemma arange_cons s e : s < e -> arange s e 1 = s :: arange (s + 1) e 1.
Proof.
  intros H. unfold arange. cbn [Z.ltb Z.compare]. rewrite !Z.div_1_r. replace (Z.to_nat (e - s + 1 - 1)) with (S (Z.to_nat (e - (s + 1) + 1 - 1))) by lia.
  cbn [seq map]. f_equal; [lia|]. rewrite <- seq_shift, map_map. apply map_ext. intros k. lia.
Qed.
Lemma arange_none s e : e <= s -> arange s e 1 = [].
Proof. intros H. unfold arange. cbn [Z.ltb Z.compare]. rewrite Z.div_1_r. replace (Z.to_nat (e - s + 1 - 1)) with O by lia. reflexivity. Qed.
Lemma rev_arange i n : i <= n -> rev (arange i n 1) = map (fun k => n - k) (arange 1 (n - i + 1) 1).
Proof.
  intros H. replace i with (n - Z.of_nat (Z.to_nat (n - i))) by lia. generalize (Z.to_nat (n - i)) as m. intros m. induction m as [|m IH].
  - rewrite !arange_none by lia. reflexivity.
  - rewrite arange_cons by lia. cbn [rev]. replace (n - Z.of_nat (S m) + 1) with (n - Z.of_nat m) by lia. rewrite IH.
    replace (n - (n - Z.of_nat (S m)) + 1) with (n - (n - Z.of_nat m) + 1 + 1) by lia. rewrite (arange_snoc 1 (n - (n - Z.of_nat m) + 1)) by lia. rewrite map_app. f_equal. cbn [map]. f_equal. lia.
Qed.
Lemma zlen_rev {A} (l : list A) : zlen (rev l) = zlen l.
Proof. unfold zlen. now rewrite rev_length. Qed.
Lemma znth_rev_arange n k : 0 <= k < n -> znth (rev (arange 0 n 1)) k = n - 1 - k.
Proof. intros H. rewrite rev_arange by lia. rewrite znth_map by (rewrite zlen_arange1; lia). rewrite znth_arange1 by lia. lia. Qed.
Lemma running_fold f i : 0 <= i -> running add f (Z.to_nat i) = plus_all (f 0) (map f (arange 1 (i + 1) 1)).
Proof.
  intros H. rewrite <- (Z2Nat.id i) at 2 by exact H. generalize (Z.to_nat i) as k. intros k. induction k as [|k IH].
  - rewrite arange_none by lia. reflexivity.
  - cbn [running]. rewrite IH. replace (Z.of_nat (S k) + 1) with (Z.of_nat k + 1 + 1) by lia. rewrite (arange_snoc 1 (Z.of_nat k + 1)) by lia.
    unfold plus_all. rewrite map_app, fold_left_app. cbn [map fold_left]. now replace (Z.of_nat (S k)) with (Z.of_nat k + 1) by lia.
Qed.
Lemma plus_all_ext {A} v (f g : A -> num) l : (forall k, In k l -> f k = g k) -> plus_all v (map f l) = plus_all v (map g l).
Proof. intros H. f_equal. now apply map_ext_in. Qed.
Lemma running_ext {V} (plus : V -> V -> V) f g k : (forall i, 0 <= i <= Z.of_nat k -> f i = g i) -> running plus f k = running plus g k.
Proof. induction k as [|k IH]; intros H; cbn [running]; [apply H; lia|]. rewrite IH by (intros; apply H; lia). f_equal. apply H. lia. Qed.
Lemma In_arange1 s e x : In x (arange s e 1) <-> s <= x < e.
Proof.
  unfold arange. rewrite in_map_iff. cbn [Z.ltb Z.compare]. rewrite Z.div_1_r. split.
  - intros (k & <- & Hk). apply in_seq in Hk. lia.
  - intros H. exists (Z.to_nat (x - s)). split; [lia|]. apply in_seq. lia.
Qed.

(** *** arrays *)
Section Arrays.
Context (s : list Z) (d : nat) (Hd : (d < length s)%nat).
Definition steady_in {V} (F : list Z -> Z -> V) : Prop := forall p i j, F (set_at p d j) i = F p i.
(** an array of length [m] along [d] *)
Definition has {V} (r : arr V) (m : Z) (F : list Z -> Z -> V) : Prop := array_is r (set_at s d m) (fun p => F p (nth d p 0)).
Definition may_have {V} (r : arr V) (m : Z) (F : list Z -> Z -> V) : Prop := shows (set_at s d m) r (fun p => F p (nth d p 0)) /\ along (set_at s d m) d r.
Lemma nth_there m : nth_error (set_at s d m) d = Some m.
Proof. rewrite nth_error_set_at by exact Hd. now rewrite Nat.eqb_refl. Qed.
Lemma inside m p : position (set_at s d m) p -> (d < length p)%nat /\ 0 <= nth d p 0 < m.
Proof.
  intros Hp. split; [rewrite <- (Forall2_len _ _ _ Hp), length_set_at; exact Hd|]. exact (position_at _ _ _ _ Hp (nth_there m)).
Qed.
Lemma has_may {V} (r : arr V) m F : has r m F -> may_have r m F.
Proof. intros H. split; [now apply shows_array|]. unfold along. now rewrite (proj1 H). Qed.
Lemma take_may {V} (r : arr V) m F idx : steady_in F -> may_have r m F -> in_range m idx -> may_have (take_axis r d idx) (zlen idx) (fun p k => F p (znth idx k)).
Proof.
  intros HF [H1 H2] Hi. destruct (take_shows _ d m r _ idx H1 H2 (nth_there m) Hi) as [T1 T2]. rewrite set_at_set in T1, T2. split; [|exact T2].
  eapply shows_ext; [exact T1|]. cbv beta. intros p Hp. destruct (inside _ _ Hp) as [Hl Hk]. now rewrite HF, nth_set_same.
Qed.
Lemma take_has {V} (r : arr V) m F idx : steady_in F -> has r m F -> in_range m idx -> has (take_axis r d idx) (zlen idx) (fun p k => F p (znth idx k)).
Proof.
  intros HF H Hi. pose proof (take_array _ d m r _ idx H (nth_there m) Hi) as T. rewrite set_at_set in T.
  eapply array_is_ext; [exact T|]. cbv beta. intros p Hp. destruct (inside _ _ Hp) as [Hl Hk]. now rewrite HF, nth_set_same.
Qed.
Lemma may_ext {V} (r : arr V) m F G : may_have r m F -> (forall p k, 0 <= k < m -> F p k = G p k) -> may_have r m G.
Proof. intros [H1 H2] E. split; [|exact H2]. eapply shows_ext; [exact H1|]. cbv beta. intros p Hp. now apply E, inside. Qed.
Lemma has_ext {V} (r : arr V) m F G : has r m F -> (forall p k, 0 <= k < m -> F p k = G p k) -> has r m G.
Proof. intros H E. eapply array_is_ext; [exact H|]. cbv beta. intros p Hp. now apply E, inside. Qed.
Lemma length_there {V} (r : arr V) m F : may_have r m F -> nth d (shape r) 0 = m.
Proof. intros [_ H]. apply nth_error_nth. unfold along in H. now rewrite H, nth_there. Qed.
Lemma second_may {V} (r : arr V) m F : 0 < m -> steady_in F -> may_have r m F -> may_have (from_second r d) (m - 1) (fun p k => F p (k + 1)).
Proof.
  intros Hm HF H. unfold from_second. rewrite (length_there _ _ _ H).
  pose proof (take_may r m F (arange 1 m 1) HF H (in_range_arange 1 m m ltac:(lia) ltac:(lia))) as T. rewrite zlen_arange1 in T by lia.
  eapply may_ext; [exact T|]. cbv beta. intros p k Hk. rewrite znth_arange1 by lia. f_equal. lia.
Qed.
Lemma last_may {V} (r : arr V) m F : 0 < m -> steady_in F -> may_have r m F -> may_have (but_last r d) (m - 1) F.
Proof.
  intros Hm HF H. unfold but_last. rewrite (length_there _ _ _ H).
  pose proof (take_may r m F (arange 0 (m - 1) 1) HF H (in_range_arange 0 (m - 1) m ltac:(lia) ltac:(lia))) as T. rewrite zlen_arange1 in T by lia. rewrite Z.sub_0_r in T.
  eapply may_ext; [exact T|]. cbv beta. intros p k Hk. rewrite znth_arange1 by lia. f_equal.
Qed.
Lemma op2_may {V} (f : V -> V -> V) a b m F G : may_have a m F -> may_have b m G -> exists c, op2 f a b = Some c /\ may_have c m (fun p k => f (F p k) (G p k)) /\
  (shape a = set_at s d m \/ shape b = set_at s d m -> shape c = set_at s d m).
Proof.
  intros [H1 H2] [H3 H4]. destruct (op2_shows f _ _ _ _ _ H1 H3) as (c & Hc & Sc & Fc). exists c. split; [exact Hc|]. split; [|exact Fc].
  split; [exact Sc|]. eapply op2_along; [exact H1|exact H3|exact Hc|now left].
Qed.
Lemma op1_may {V} (f : V -> V) a m F : may_have a m F -> may_have (op1 f a) m (fun p k => f (F p k)).
Proof. intros [H1 H2]. split; [now apply (op1_shows f _ _ _ H1)|exact H2]. Qed.
Lemma may_has {V} (r : arr V) m F : may_have r m F -> shape r = set_at s d m -> has r m F.
Proof. intros [H _] E. now apply array_shows. Qed.
Lemma shape_take {V} (r : arr V) m idx : shape r = set_at s d m -> shape (take_axis r d idx) = set_at s d (zlen idx).
Proof. intros H. unfold take_axis. cbn [shape]. now rewrite H, set_at_set. Qed.
Lemma ordered_has {V} back (r : arr V) m F : 0 <= m -> steady_in F -> has r m F -> has (ordered back r d) m (fun p k => F p (if back then m - 1 - k else k)).
Proof.
  intros Hm HF H. unfold ordered. destruct back; [|exact H]. rewrite (length_there _ _ _ (has_may _ _ _ H)).
  assert (in_range m (rev (arange 0 m 1))) as Hr.
  { apply Forall_forall. intros k Hk. apply in_rev, In_arange1 in Hk. exact Hk. }
  pose proof (take_has r m F _ HF H Hr) as T. rewrite zlen_rev, zlen_arange1 in T by lia. rewrite Z.sub_0_r in T.
  eapply has_ext; [exact T|]. cbv beta. intros p k Hk. now rewrite znth_rev_arange by lia.
Qed.
Lemma concatenate_has {V} (a b : arr V) m n F G : 0 <= m -> steady_in G -> has a m F -> has b n G ->
  exists c, concatenate a b d = Some c /\ has c (m + n) (fun p k => if k <? m then F p k else G p (k - m)).
Proof.
  intros Hm HG [A1 A2] [B1 B2]. unfold concatenate. rewrite A1, B1, !set_at_set.
  destruct (list_eq_dec Z.eq_dec (set_at s d 0) (set_at s d 0)) as [_|]; [|congruence].
  rewrite (nth_error_nth _ _ 0 (nth_there m)), (nth_error_nth _ _ 0 (nth_there n)). eexists. split; [reflexivity|]. split; [reflexivity|].
  intros p Hp. cbn [val]. destruct (inside _ _ Hp) as [Hl Hk]. destruct (Z.ltb_spec (nth d p 0) m).
  - apply A2. pose proof (position_set_shape (set_at s d m) p d m (m + n)) as K. rewrite set_at_set in K. specialize (K Hp (nth_there m) (nth d p 0) ltac:(lia)).
    rewrite (set_at_nth p d) in K; [exact K|]. now apply nth_error_nth'.
  - rewrite B2; [now rewrite nth_set_same, HG|].
    pose proof (position_set_shape (set_at s d n) p d n (m + n)) as K. rewrite set_at_set in K. apply (K Hp (nth_there n)). lia.
Qed.
Lemma accumulate_has {V} plus (a : arr V) m F : steady_in F -> has a m F -> has (accumulate plus a d) m (fun p k => running plus (F p) (Z.to_nat k)).
Proof.
  intros HF [A1 A2]. split; [exact A1|]. intros p Hp. cbn [val accumulate]. destruct (inside _ _ Hp) as [Hl Hk].
  apply running_ext. intros i Hi. rewrite A2; [now rewrite HF, nth_set_same|]. exact (position_set _ p d m i Hp (nth_there m) ltac:(lia)).
Qed.
End Arrays.

Section Var.
Context (env : axenv) (Henv : env_ok env) (junk : list Z -> num).
Notation get := (ViewModel.get (axis_ops env) junk).

Lemma starts_steady (x : var axis num) d v0 V0 : starts env x d v0 V0 -> steady d V0.
Proof.
  destruct v0 as [[c|w]|]; cbn [starts].
  - intros H q i. now rewrite !H.
  - intros (al & W & _ & _ & Hn & _ & H) q i. rewrite !H. unfold restricted_to. f_equal. apply map_ext_in. intros k Hk. unfold moved.
    assert (k <> d) as Hne by (intros ->; contradiction). clear - Hne. revert k q Hne. induction d as [|d IH]; intros k q Hne; destruct q as [|y q]; try reflexivity; destruct k as [|k]; try reflexivity; try congruence.
    cbn. apply IH. congruence.
  - intros H q i. now rewrite !H.
Qed.
Lemma initial_spec (x : var axis num) D d a L v0 V0 ind : responds env x D -> nth_error (var_axes x) d = Some a -> Forall2 selection (var_axes x) L ->
  nth_error L d = Some ind -> starts env x d v0 V0 ->
  exists d0, match (match v0 with Some v0 => v0 | None => ANum zero end) with
        | AVar v0 => bind (get (view_of_inds (var_axes x) L) v0 true true) (fun d0 => broadcast d0 (set_at (vshape (view_of_inds (var_axes x) L)) d 1))
        | ANum c => Some (Arr (set_at (vshape (view_of_inds (var_axes x) L)) d 1) (fun _ => c))
        end = Some d0 /\ array_is d0 (set_at (map zlen L) d 1) (fun p => V0 (gather L p)).
Proof.
  intros Hx Ha HL Hind HV. unfold vshape. cbn [vinds view_of_inds]. set (s := map zlen L).
  destruct v0 as [[c|w]|]; cbn [starts] in HV.
  - eexists. split; [reflexivity|]. split; [reflexivity|]. intros p _. cbn [val]. now rewrite HV.
  - destruct HV as (al & W & Hw & Hnd & Hnin & Hal & HV0).
    destruct (read_other_shape env Henv junk (var_axes x) L w W al Hw (proj1 Hx) HL (conj Hnd Hal)) as (r & -> & Hsh & Hs & _). cbn [bind]. fold s in Hsh, Hs.
    assert (d < length s)%nat as Hd by (unfold s; rewrite map_length; apply nth_error_Some; congruence).
    assert (fits (shape r) (set_at s d 1)) as Hf.
    { rewrite Hsh. apply Forall2_intro_nth; [now rewrite (length_outshape junk), length_set_at|]. intros i m n Hm Hn.
      assert (i < length s)%nat as Hi by (rewrite <- (length_outshape junk s al); apply nth_error_Some; congruence).
      rewrite nth_error_set_at in Hn by exact Hd. destruct (nth_error s i) as [k|] eqn:Ek; [|apply nth_error_None in Ek; lia].
      destruct (Nat.eqb_spec d i) as [E|E].
      - subst i. injection Hn as <-. right. unfold outshape in Hm. rewrite nth_error_map, nth_error_combine, nth_error_seq in Hm. destruct (Nat.ltb_spec d (length s)); [|lia]. rewrite Ek in Hm. cbn in Hm.
        destruct (existsb (Nat.eqb d) al) eqn:Ex; [apply existsb_In in Ex; contradiction|congruence].
      - assert (k = n) as -> by congruence. pose proof (outshape_fits s al) as K. exact (Forall2_nth_error _ _ _ _ _ _ K Hm Ek). }
    destruct (broadcast_fits r _ Hf) as (b & Hb & Bs & Bv). exists b. split; [exact Hb|]. split; [exact Bs|]. intros p Hp. rewrite Bv.
    assert (nth_error s d = Some (zlen ind)) as Hsd by (unfold s; rewrite nth_error_map, Hind; reflexivity).
    assert (0 < zlen ind) as Hpos.
    { destruct (Forall2_nth_error _ _ _ _ _ _ HL Ha Hind) as (Hne & _). destruct ind; [congruence|]. unfold zlen. cbn. lia. }
    assert (0 <= nth d p 0 < 1) as Hk by (apply (position_at _ _ _ _ Hp); rewrite nth_error_set_at by exact Hd; now rewrite Nat.eqb_refl).
    assert (position s p) as Hps.
    { pose proof (position_set_shape s p d (zlen ind) 1 Hp Hsd (nth d p 0) ltac:(lia)) as K. rewrite (set_at_nth p d) in K; [exact K|].
      apply nth_error_nth'. rewrite <- (Forall2_len _ _ _ Hp), length_set_at. exact Hd. }
    destruct Hs as [_ Hs]. specialize (Hs p Hps). unfold squash in Hs. rewrite Hs. now rewrite HV0.
  - eexists. split; [reflexivity|]. split; [reflexivity|]. intros p _. cbn [val]. now rewrite HV.
Qed.

Theorem integrate_spec (x : var axis num) D d a dx X v0 V0 back type : responds env x D -> nth_error (var_axes x) d = Some a -> 1 < axis_len a ->
  coordinates env x d dx X -> starts env x d v0 V0 ->
  exists y, integrate_var env junk x d dx v0 back type = Some y /\ var_axes y = var_axes x /\
    responds env y (fun q => integral back (axis_len a) (V0 q) (contribution type (fun i => D (moved q d i)) (fun i => X (moved q d i))) (nth d q 0)).
Proof.
  intros Hx Ha HN HX HV. destruct (coordinate_var env x d a dx X Ha HX) as (al & X0 & Hdx & Ho & Hin & HX0).
  unfold integrate_var. rewrite Ha. cbn [bind]. destruct (Z.ltb_spec (axis_len a) 2); [lia|].
  set (dv := match dx with Some dx => dx | None => axis_var a end) in *. eexists. split; [reflexivity|]. split; [reflexivity|].
  split; [exact (proj1 Hx)|]. cbn [var_source var_axes]. intros L HL.
  destruct (get_left _ L d a HL Ha) as (ind & Hind & Hne & Hir & Hinc).
  unfold integrate_view. rewrite (unslice_view env junk _ _ _ _ HL Ha). cbn [bind].
  set (N := axis_len a) in *. set (u := arange 0 N 1).
  assert (selection a u) as Hu.
  { split; [unfold u; rewrite arange_cons by lia; discriminate|]. split; [apply range_arange|apply increasing_arange]. }
  assert (zlen u = N) as Hzu by (unfold u; rewrite zlen_arange1; lia).
  destruct (read_both env Henv junk x dv D X0 al L d a u Hx Hdx Ho Hin HL Ha Hu) as (v & r & ra & Hv & Hr & Hra & H1 & H2 & H3 & H4 & H5).
  rewrite (modify_view env junk _ _ _ _ a HL Ha (proj1 (proj2 Hu))) in Hv. injection Hv as <-. rewrite Hr. cbn [bind].
  destruct (initial_spec x D d a L v0 V0 ind Hx Ha HL Hind HV) as (d0 & -> & Hd0). cbn [bind].
  set (s := map zlen L) in *.
  assert (nth_error s d = Some (zlen ind)) as Hsd by (unfold s; rewrite nth_error_map, Hind; reflexivity).
  assert (d < length s)%nat as Hds by (apply nth_error_Some; congruence).
  rewrite Hzu in *.
  set (F := fun p i => D (moved (gather L p) d i)). set (Fx := fun p i => X (moved (gather L p) d i)).
  assert (steady_in d F) as HF by (intros p i j; unfold F, moved; now rewrite gather_set_p, set_at_set).
  assert (steady_in d Fx) as HFx by (intros p i j; unfold Fx, moved; now rewrite gather_set_p, set_at_set).
  assert (has s d r N F) as Rr.
  { eapply array_is_ext; [apply array_shows; [exact H1|exact H3]|]. cbv beta. intros p Hp. destruct (inside s d Hds _ _ Hp) as [_ Hk].
    unfold F, moved, u. rewrite znth_arange1 by lia. reflexivity. }
  assert (may_have s d ra N Fx) as Rx.
  { split; [|exact H5]. eapply shows_ext; [exact H4|]. cbv beta. intros p Hp. destruct (inside s d Hds _ _ Hp) as [_ Hk].
    unfold Fx, moved, u. rewrite znth_arange1 by lia. symmetry. apply HX0. }
  set (T := fun p => contribution type (F p) (Fx p)).
  assert (steady_in d T) as HT.
  { intros p i j. unfold T, contribution. destruct type; now rewrite ?HF, ?HFx. }
  assert (exists terms, match type with
        | Cumsum => Some (from_second r d)
        | _ =>
          bind (bind (get (view_of_inds (var_axes x) (set_at L d u)) dv true true) (fun r => np_diff sub 1 r d)) (fun dd =>
          match type with
          | Trapz => bind (op2 add (but_last r d) (from_second r d)) (fun s => op2 mul (op1 (mul half) dd) s)
          | Rectl => op2 mul dd (but_last r d)
          | _ => op2 mul dd (from_second r d)
          end)
        end = Some terms /\ has s d terms (N - 1) T) as (terms & Ht & HTt).
  { pose proof (second_may s d Hds r N F ltac:(lia) HF (has_may s d r N F Rr)) as S2.
    pose proof (last_may s d Hds r N F ltac:(lia) HF (has_may s d r N F Rr)) as S1.
    assert (shape (from_second r d) = set_at s d (N - 1)) as E2.
    { unfold from_second. rewrite (length_there s d Hds r N F (has_may s d r N F Rr)). rewrite (shape_take s d r N _ (proj1 Rr)). now rewrite zlen_arange1 by lia. }
    assert (shape (but_last r d) = set_at s d (N - 1)) as E1.
    { unfold but_last. rewrite (length_there s d Hds r N F (has_may s d r N F Rr)). rewrite (shape_take s d r N _ (proj1 Rr)). rewrite zlen_arange1 by lia. now rewrite Z.sub_0_r. }
    assert (type = Cumsum \/ exists dd, bind (get (view_of_inds (var_axes x) (set_at L d u)) dv true true) (fun r => np_diff sub 1 r d) = Some dd /\
      may_have s d dd (N - 1) (fun p k => sub (Fx p (k + 1)) (Fx p k))) as [->|(dd & Hdd & Sd)].
    { destruct type; [right|right|right|now left];
      (rewrite Hra; cbn [bind np_diff];
      destruct (op2_may s d sub _ _ _ _ _ (second_may s d Hds ra N Fx ltac:(lia) HFx Rx) (last_may s d Hds ra N Fx ltac:(lia) HFx Rx)) as (c & Hc & Sc & _);
      rewrite Hc; cbn [bind]; exists c; auto). }
    - eexists. split; [reflexivity|]. now apply may_has.
    - assert (exists terms', match type with Cumsum => Some (from_second r d)
          | Trapz => bind (op2 add (but_last r d) (from_second r d)) (fun s => op2 mul (op1 (mul half) dd) s)
          | Rectl => op2 mul dd (but_last r d)
          | _ => op2 mul dd (from_second r d) end = Some terms' /\ has s d terms' (N - 1) T) as (terms' & Ht' & HT').
      { destruct type.
        - destruct (op2_may s d add _ _ _ _ _ S1 S2) as (c & -> & Sc & Fc). cbn [bind].
          destruct (op2_may s d mul _ _ _ _ _ (op1_may s d (mul half) _ _ _ Sd) Sc) as (e & -> & Se & Fe). exists e. split; [reflexivity|]. apply may_has; [exact Se|auto].
        - destruct (op2_may s d mul _ _ _ _ _ Sd S1) as (e & -> & Se & Fe). exists e. split; [reflexivity|]. apply may_has; [exact Se|auto].
        - destruct (op2_may s d mul _ _ _ _ _ Sd S2) as (e & -> & Se & Fe). exists e. split; [reflexivity|]. apply may_has; [exact Se|auto].
        - eexists. split; [reflexivity|]. now apply may_has. }
      exists terms'. split; [|exact HT']. rewrite Hdd. cbn [bind]. destruct type; exact Ht'. }
  rewrite Ht. cbn [bind].
  pose proof (ordered_has s d Hds back terms (N - 1) T ltac:(lia) HT HTt) as Ord.
  destruct (concatenate_has s d Hds d0 (ordered back terms d) 1 (N - 1) (fun p _ => V0 (gather L (set_at p d 0))) (fun p k => T p (if back then N - 1 - 1 - k else k))) as (c & -> & Hc).
  - lia.
  - intros p i j. apply HT.
  - eapply array_is_ext; [exact Hd0|]. cbv beta. intros p Hp. destruct (inside s d Hds _ _ Hp) as [Hl Hk]. f_equal. f_equal.
    symmetry. apply set_at_nth. rewrite (nth_error_nth' p 0 Hl). f_equal. lia.
  - exact Ord.
  - cbn [bind]. eexists. split; [reflexivity|]. replace (1 + (N - 1)) with N in Hc by lia.
    match type of Hc with has _ _ _ _ ?G => set (E := G) in * end.
    assert (steady_in d E) as HE by (intros p i j; unfold E; now rewrite set_at_set, HT).
    pose proof (accumulate_has s d Hds add c N E HE Hc) as Hac.
    set (Rn := fun p k => running add (E p) (Z.to_nat k)) in Hac.
    assert (steady_in d Rn) as HR by (intros p i j; unfold Rn; apply running_ext; intros; apply HE).
    pose proof (ordered_has s d Hds back _ N Rn ltac:(lia) HR Hac) as Hor. set (Rb := fun p k => Rn p (if back then N - 1 - k else k)) in Hor.
    assert (steady_in d Rb) as HRb by (intros p i j; unfold Rb; apply HR).
    pose proof (take_has s d Hds _ N Rb ind HRb Hor Hir) as Htk. unfold Rb, Rn in Htk.
    cbn [vinds view_of_inds]. rewrite (nth_error_nth _ _ [] Hind). unfold has in Htk. rewrite (set_at_nth s d _ Hsd) in Htk.
    eapply array_is_ext; [exact Htk|]. cbv beta. intros p Hp.
    assert (length p = length L) as Hpl by (rewrite <- (Forall2_len _ _ _ Hp); unfold s; now rewrite map_length).
    rewrite (nth_gather' L p d ind Hpl Hind). pose proof (position_at s p d _ Hp Hsd) as Hk.
    set (i := znth ind (nth d p 0)).
    assert (0 <= i < N) as Hi.
    { unfold in_range in Hir. rewrite Forall_forall in Hir. apply Hir. unfold i, znth. apply nth_In. unfold zlen in Hk. lia. }
    rewrite running_fold by (destruct back; lia). unfold integral. fold (F p) (Fx p) (T p).
    assert (E p 0 = V0 (gather L p)) as E0.
    { unfold E. cbn [Z.ltb Z.compare]. rewrite gather_set_p. apply (starts_steady x d v0 V0 HV). }
    rewrite E0. destruct back.
    + rewrite rev_arange by lia. rewrite map_map. replace (N - 1 - i + 1) with (N - 1 - i + 1) by lia. apply plus_all_ext. intros k Hk'. apply In_arange1 in Hk'.
      unfold E. destruct (Z.ltb_spec k 1); [lia|]. f_equal. lia.
    + replace (arange 1 (i + 1) 1) with (map (fun k => k + 1) (arange 0 i 1)).
      * rewrite map_map. apply plus_all_ext. intros k Hk'. apply In_arange1 in Hk'. unfold E. destruct (Z.ltb_spec (k + 1) 1); [lia|]. f_equal. lia.
      * clear. unfold arange. cbn [Z.ltb Z.compare]. rewrite map_map, !Z.div_1_r. replace (i + 1 - 1 + 1 - 1) with (i - 0 + 1 - 1) by lia. apply map_ext. intros k. lia.
Qed.
End Var.
