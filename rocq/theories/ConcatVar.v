(** Reading concatenated variables. *)
From Coq Require Import ZArith List Bool Lia QArith_base.
From Verif Require Import CalModel TimeSearchModel TimeSearchSpec SortSpec IndexModel IndexSpec IndexProofs ArrModel ArrProofs ViewModel ViewSpec ViewProofs
     AxisModel AxisSpec AxisProofs VarOpsModel VarOpsSpec VarOpsProofs ReduceModel ReduceSpec ChunkProofs LoopProofs RespondProofs UfuncSpec UfuncProofs UfuncView
     StencilModel StencilProofs DiffProofs IntgrProofs ConcatModel ConcatSpec ConcatProofs ConcatAxis.
Import ListNotations.
Open Scope Z_scope.

(** *** view.get for a variable whose axes are those of the view, in the same order *)
Section Get.
Context {V : Type} (env : axenv) (Henv : env_ok env) (junk : list Z -> V).
Notation get := (ViewModel.get (axis_ops env) junk).
Notation ops := (axis_ops env).

Lemma get_raw_fetch v strict (x : var axis V) D mm :
  (exists r, fetch junk x (view_of_inds (var_axes x) mm) = Some r /\ array_is r (map zlen mm) (fun p => D (gather mm p))) ->
  Forall2 (fun a m => exists sl oi, map_axis ops v strict a = Some (sl, oi) /\ expand sl (len ops a) = Some m /\ m <> []) (var_axes x) mm ->
  exists r, get v x strict false = Some r /\ array_is r (map zlen mm) (fun p => D (gather mm p)).
Proof.
  intros Hx Hm. unfold ViewModel.get. rewrite andb_false_r.
  assert (exists ms, sequence (map (map_axis ops v strict) (var_axes x)) = Some ms /\ length ms = length (var_axes x) /\
            sequence (map (fun '(sl, a) => expand sl (len ops a)) (combine (map fst ms) (var_axes x))) = Some mm) as (ms & H1 & H2 & H3).
  { clear -Hm. induction Hm as [|a m axs mm (sl & oi & E1 & E2 & _) Hm (ms & I1 & I2 & I3)]; [exists []; auto|].
    exists ((sl, oi) :: ms). cbn [map sequence fst combine length]. rewrite E1, I1, E2, I3. auto. }
  unfold map_to. rewrite H1. unfold view_of_slices. rewrite map_length, H2, Nat.eqb_refl, H3.
  change (MkView (var_axes x) (map simplify mm) mm) with (view_of_inds (var_axes x) mm).
  assert (Forall (fun l => l <> []) mm) as Hne.
  { apply Forall_forall. intros l Hl. apply (Forall2_In_r _ _ _ _ Hm) in Hl as (a & _ & _ & _ & _ & _ & H). exact H. }
  destruct (existsb (Z.eqb 0) (vshape (view_of_inds (var_axes x) mm))) eqn:E0.
  { exfalso. apply existsb_exists in E0 as (n & Hn & E%Z.eqb_eq). subst n. unfold vshape in Hn. cbn in Hn. apply in_map_iff in Hn as (l & Hl & Hin).
    apply (proj1 (Forall_forall _ _) Hne) in Hin. destruct l as [|z l]; [congruence|]. rewrite zlen_cons in Hl. pose proof (zlen_nonneg l). lia. }
  destruct Hx as (a & Ha & Hs & Hv).
  rewrite Ha, Hs, map_length, (Forall2_len _ _ _ Hm), Nat.eqb_refl. cbn [negb].
  destruct (list_eq_dec Z.eq_dec _ _) as [_|Hneq]; [|exfalso; apply Hneq; reflexivity]. rewrite andb_false_r.
  exists a. split; [reflexivity|split; assumption].
Qed.

Definition in_place (axes B : list axis) : Prop :=
  length B = length axes /\
  forall j k a b, nth_error axes j = Some a -> nth_error B k = Some b -> axis_same a b = Nat.eqb j k.

Lemma in_place_mapped axes B L j a l : in_place axes B -> Forall2 selection axes L -> nth_error axes j = Some a -> nth_error L j = Some l ->
  mapped ops (view_of_inds B L) a (j, l).
Proof.
  intros [Hlen Hp] HL Ha Hl. pose proof (Forall2_len _ _ _ HL) as E.
  destruct (nth_error B j) as [b|] eqn:Eb; [|apply nth_error_None in Eb; assert (j < length axes)%nat by (apply nth_error_Some; congruence); lia].
  apply (mapped_same ops junk B L a j b l); auto; [congruence| | |].
  - cbn. rewrite (Hp j j a b Ha Eb). apply Nat.eqb_refl.
  - intros k b' Hk Hb'. cbn. rewrite (Hp j k a b' Ha Hb'). apply Nat.eqb_neq. lia.
  - apply (Forall2_nth_error _ _ _ _ _ _ HL Ha Hl).
Qed.

Lemma get_in_place B L (x : var axis V) D conform : responds env x D -> Forall2 selection (var_axes x) L -> in_place (var_axes x) B ->
  exists r, get (view_of_inds B L) x true conform = Some r /\ array_is r (map zlen L) (fun p => D (gather L p)).
Proof.
  intros Hx HL Hp. pose proof (Forall2_len _ _ _ HL) as HLen.
  pose proof (fetch_inc env junk x D L Hx HL) as Hfetch.
  destruct conform.
  - set (n := length L). assert (length (seq 0 n) = length L) as Hsl by now rewrite seq_length.
    assert (map fst (combine (seq 0 n) L) = seq 0 n) as E1.
    { assert (forall (l : list nat) (l' : list (list Z)), length l = length l' -> map fst (combine l l') = l) as HH
        by (induction l; intros [|? ?] E; simpl in *; try lia; [reflexivity|f_equal; auto]). now apply HH. }
    assert (map snd (combine (seq 0 n) L) = L) as E2.
    { assert (forall (l : list nat) (l' : list (list Z)), length l = length l' -> map snd (combine l l') = l') as HH
        by (induction l; intros [|? ?] E; simpl in *; try lia; [reflexivity|f_equal; auto]). now apply HH. }
    destruct (get_fetch ops junk B L x D (combine (seq 0 n) L)) as (r & Er & Hr).
    + rewrite <- HLen. symmetry. apply Hp.
    + rewrite E2. exact Hfetch.
    + apply Forall2_intro_nth; [rewrite combine_length, seq_length; lia|]. intros j a [i l] Ha Hi. rewrite nth_error_combine, nth_error_seq in Hi.
      destruct (Nat.ltb_spec j n) as [Lj|]; [|discriminate]. destruct (nth_error L j) as [l'|] eqn:El; [|discriminate]. injection Hi as <- <-. cbn [Nat.add].
      now apply (in_place_mapped (var_axes x)).
    + rewrite E1. apply seq_NoDup.
    + rewrite E2. apply Forall_forall. intros l Hl. destruct (Forall2_In_r _ _ _ _ HL Hl) as (a & _ & H & _). exact H.
    + exists r. split; [exact Er|]. rewrite E1, E2 in Hr. rewrite (outshape_full (map zlen L) (seq 0 n)) in Hr.
      * destruct Hr as [Hs Hv]. split; [exact Hs|]. intros p Hp'. rewrite (Hv p Hp'). f_equal. unfold n. apply gather_nth_seq. apply Forall2_len in Hp'. now rewrite map_length in Hp'.
      * intros i Hi. rewrite map_length in Hi. apply in_seq. unfold n. lia.
  - apply (get_raw_fetch _ true x D L Hfetch). apply Forall2_intro_nth; [exact HLen|]. intros j a l Ha Hl.
    destruct (in_place_mapped _ B L j a l Hp HL Ha Hl) as ((sl & M1 & M2) & _). cbn [fst snd] in *. exists sl, (Some j). split; [exact M1|]. split; [exact M2|].
    apply (Forall2_nth_error _ _ _ _ _ _ HL Ha Hl).
Qed.
End Get.

Lemma same_len a b : axis_same a b = true -> axis_len a = axis_len b.
Proof.
  destruct a as [c|m|s], b as [e|n|t]; cbn [axis_same axis_len]; try discriminate.
  - intros H. apply orb_prop in H as [H|H].
    + unfold coord_is in H. repeat (apply andb_prop in H as [H ?]). now apply qlist_eqb_elem.
    + now apply coord_eq_close.
  - unfold noncoord_eq. intros H. apply andb_prop in H as [_ H]. destruct (list_eq_dec _ _ _) as [->|]; [reflexivity|discriminate].
  - unfold time_eq. intros H. apply andb_prop in H as [H _]. apply andb_prop in H as [_ H]. apply Nat.eqb_eq in H. unfold zlen. now rewrite H.
Qed.

Section Concat.
Context {V : Type} (env : axenv) (Henv : env_ok env) (junk : list Z -> V) (dflt : V).
Notation ops := (axis_ops env).
Context (A : list axis) (d : nat) (whole : axis) (Hw : good_axis whole) (Hd : (d < length A)%nat).
Notation piece := (var axis V * axis * (list Z -> V))%type.
Definition pvar (y : piece) := fst (fst y).
Definition paxis (y : piece) := snd (fst y).
Definition good_piece (y : piece) : Prop :=
  responds env (pvar y) (snd y) /\ matching d A (var_axes (pvar y)) /\ nth_error (var_axes (pvar y)) d = Some (paxis y) /\ tight_axis (paxis y).

Context (L : list (list Z)) (HL : Forall2 selection (set_at A d whole) L).
Let v := view_of_inds (set_at A d whole) L.
Let l := nth d L [].
Lemma HlenL : length L = length A.
Proof. rewrite <- (Forall2_len _ _ _ HL). apply length_set_at. Qed.
Lemma nth_l : nth_error L d = Some l.
Proof. unfold l. apply nth_error_nth'. rewrite HlenL. exact Hd. Qed.
Lemma nth_whole : nth_error (set_at A d whole) d = Some whole.
Proof. rewrite nth_error_set_at by exact Hd. now rewrite Nat.eqb_refl. Qed.
Lemma sel_l : selection whole l.
Proof. exact (Forall2_nth_error _ _ _ _ _ _ HL nth_whole nth_l). Qed.
Lemma subaxis_eq : subaxis env v d = Some (axis_take env whole l).
Proof.
  unfold subaxis, v. cbn [vaxes vslices view_of_inds]. rewrite nth_whole, nth_error_map, nth_l. cbn [bind option_map].
  rewrite np_index_simplify by apply sel_l. reflexivity.
Qed.

Fixpoint part_list (o : Z) (ys : list piece) : list (var axis V * axis * list Z) :=
  match ys with [] => [] | y :: t => (pvar y, paxis y, part o (axis_len (paxis y)) l) :: part_list (o + axis_len (paxis y)) t end.
Fixpoint segments_from (o : Z) (ys : list piece) : Prop :=
  match ys with [] => True | y :: t => segment whole o (paxis y) /\ segments_from (o + axis_len (paxis y)) t end.

Lemma parts_eq : forall ys o, Forall good_piece ys -> segments_from o ys ->
  sequence (map (fun x => bind (nth_error (var_axes x) d) (fun a => option_map (pair (x, a)) (axis_map_to env a (axis_take env whole l)))) (map pvar ys)) = Some (part_list o ys).
Proof.
  induction ys as [|y ys IH]; intros o Hg Hs; [reflexivity|]. inversion Hg as [|? ? (G1 & G2 & G3 & G4) Hg']; subst. destruct Hs as [S1 S2].
  cbn [map sequence part_list]. rewrite G3. cbn [bind].
  rewrite (segment_map env Henv whole o (paxis y) l (axis_take env whole l) Hw G4 S1); [|apply sel_l|apply sliced_self; [exact Henv|exact Hw|apply sel_l]].
  cbn [option_map]. rewrite (IH _ Hg' S2). reflexivity.
Qed.

Lemma piece_get y p : good_piece y -> p <> [] -> increasing p -> in_range (axis_len (paxis y)) p ->
  exists r, bind (replace_axis env v d (paxis y) (SList p)) (fun sub => ViewModel.get ops junk sub (pvar y) true false) = Some r /\
    has (map zlen L) d r (zlen p) (chunk_data d L (snd y) p).
Proof.
  intros (G1 & (M0 & M1 & M2 & M3) & G3 & G4) Hne Hinc Hr.
  assert (length (set_at A d whole) = length A) as Hls by apply length_set_at.
  set (x := pvar y) in *. set (a := paxis y) in *.
  assert (Forall2 selection (var_axes x) (set_at L d p)) as Hsel.
  { apply Forall2_intro_nth; [rewrite length_set_at, HlenL; exact M0|]. intros j b m Hb Hm. rewrite nth_error_set_at in Hm by (rewrite HlenL; exact Hd).
    destruct (Nat.eqb_spec d j) as [E|E].
    - injection Hm as <-. subst j. rewrite G3 in Hb. injection Hb as <-. repeat split; assumption.
    - destruct (nth_error A j) as [a'|] eqn:Ea; [|apply nth_error_None in Ea; assert (j < length (var_axes x))%nat by (apply nth_error_Some; congruence); lia].
      assert (nth_error (set_at A d whole) j = Some a') as Ea' by (rewrite nth_error_set_at by exact Hd; destruct (Nat.eqb_spec d j); congruence).
      pose proof (Forall2_nth_error _ _ _ _ _ _ HL Ea' Hm) as (K1 & K2 & K3). split; [exact K1|]. split; [|exact K3].
      rewrite (same_len b a') by (apply (M2 j); congruence || assumption). exact K2. }
  assert (in_place (var_axes x) (set_at A d a)) as Hpl.
  { split; [rewrite length_set_at; congruence|]. intros j k b c Hb Hc. rewrite nth_error_set_at in Hc by exact Hd.
    destruct (Nat.eqb_spec d k) as [E|E].
    - injection Hc as <-. subst k. destruct (Nat.eqb_spec j d) as [E|E].
      + subst j. rewrite G3 in Hb. injection Hb as <-. apply same_refl.
      + apply unrelated_same. destruct G1 as [Gs _]. apply (Gs j d b a Hb G3 E).
    - destruct (Nat.eqb_spec j k) as [E'|E'].
      + subst j. apply (M2 k); congruence || assumption.
      + apply unrelated_same. apply (M3 k j c b); auto. }
  assert (replace_axis env v d a (SList p) = Some (view_of_inds (set_at A d a) (set_at L d p))) as Ev.
  { unfold replace_axis, v. cbn [vaxes vslices view_of_inds]. rewrite set_at_set. apply (slices_inds env (set_at A d a) (set_at L d p)).
    - apply Forall2_intro_nth; [rewrite !length_set_at, HlenL; reflexivity|]. intros j b m Hb Hm.
      rewrite nth_error_set_at in Hm by (rewrite HlenL; exact Hd). rewrite nth_error_set_at in Hb by exact Hd.
      destruct (Nat.eqb_spec d j) as [E|E]; [injection Hm as <-; injection Hb as <-; exact Hr|].
      assert (nth_error (set_at A d whole) j = Some b) as Eb by (rewrite nth_error_set_at by exact Hd; destruct (Nat.eqb_spec d j); congruence).
      pose proof (Forall2_nth_error _ _ _ _ _ _ HL Eb Hm) as (K1 & K2 & K3). exact K2.
    - apply Forall2_intro_nth; [rewrite length_set_at, map_length, combine_length, !length_set_at, HlenL; lia|]. intros j sl [b m] Hsl Hbm.
      rewrite nth_error_combine in Hbm. rewrite (nth_error_set_at A d j a Hd) in Hbm. rewrite nth_error_set_at in Hbm by (rewrite HlenL; exact Hd).
      rewrite nth_error_set_at in Hsl by (rewrite map_length, HlenL; exact Hd). cbn [fst snd].
      destruct (Nat.eqb_spec d j) as [E|E].
      + injection Hsl as <-. injection Hbm as <- <-. cbn [expand]. reflexivity.
      + rewrite nth_error_map in Hsl. destruct (nth_error A j) as [b'|] eqn:Eb; [|discriminate]. destruct (nth_error L j) as [m'|] eqn:Em; [|discriminate].
        injection Hbm as <- <-. injection Hsl as <-. apply expand_simplify.
        assert (nth_error (set_at A d whole) j = Some b') as Eb' by (rewrite nth_error_set_at by exact Hd; destruct (Nat.eqb_spec d j); congruence).
        pose proof (Forall2_nth_error _ _ _ _ _ _ HL Eb' Em) as (K1 & K2 & K3). eapply Forall_impl; [|exact K2]. intros i Hi. cbv beta in Hi. lia. }
  rewrite Ev. cbn [bind]. destruct (get_in_place env junk (set_at A d a) (set_at L d p) x (snd y) false G1 Hsel Hpl) as (r & Er & Hs & Hv).
  exists r. split; [exact Er|]. rewrite map_set_at in Hs, Hv. split; [exact Hs|]. intros q Hq. rewrite (Hv q Hq). unfold chunk_data. now rewrite gather_set.
Qed.

Lemma chunks_eq : forall ys o, Forall good_piece ys -> segments_from o ys ->
  exists chunks, sequence (map (fun '(x, a, sl) => bind (replace_axis env v d a (SList sl)) (fun sub => ViewModel.get ops junk sub x true false))
                      (filter (fun '(_, sl) => 0 <? zlen sl) (part_list o ys))) = Some chunks /\
    Forall2 (fun x r => let '(o, n, E) := x in has (map zlen L) d r (zlen (part o n l)) (chunk_data d L E (part o n l)))
      (filter (fun '(o, n, _) => 0 <? zlen (part o n l)) (with_offsets o (map (fun y => (axis_len (paxis y), snd y)) ys))) chunks.
Proof.
  induction ys as [|y ys IH]; intros o Hg Hs; [exists []; split; [reflexivity|constructor]|].
  inversion Hg as [|? ? G Hg']; subst. destruct Hs as [S1 S2]. destruct (IH _ Hg' S2) as (chunks & E & Hc).
  cbn [part_list map with_offsets filter]. set (p := part o (axis_len (paxis y)) l) in *. destruct (Z.ltb_spec 0 (zlen p)) as [Lp|Lp].
  - destruct (piece_get y p G) as (r & Er & Hr).
    + intros E0. rewrite E0 in Lp. cbn in Lp. lia.
    + apply part_increasing, sel_l.
    + apply part_range.
    + exists (r :: chunks). cbn [map sequence]. rewrite Er, E. split; [reflexivity|]. constructor; assumption.
  - exists chunks. split; assumption.
Qed.

Lemma concat_view_spec ys : Forall good_piece ys -> segments_from 0 ys -> axis_len whole = fold_right Z.add 0 (map (fun y => axis_len (paxis y)) ys) ->
  exists r, concat_view env junk (map pvar ys) d v = Some r /\
    array_is r (map zlen L) (fun p => joined dflt d 0 (map (fun y => (axis_len (paxis y), snd y)) ys) (gather L p)).
Proof.
  intros Hg Hs Hlen. unfold concat_view. rewrite subaxis_eq. cbn [bind]. rewrite (parts_eq ys 0 Hg Hs). cbn [bind].
  destruct (chunks_eq ys 0 Hg Hs) as (chunks & -> & Hc). cbn [bind]. destruct sel_l as (Hne & Hr & Hinc).
  destruct (chunks_join dflt d L (eq_ind_r (fun n => (d < n)%nat) Hd HlenL) (map (fun y : piece => (axis_len (paxis y), snd y)) ys) 0 l chunks) with (5 := Hc) as (c & Ec & Hcc).
  - apply Forall_forall. intros [n E] Hin. apply in_map_iff in Hin as (y & [= <- <-] & _). apply axis_len_nonneg.
  - now apply increasing_sorted.
  - exact Hne.
  - intros k Hk. rewrite map_map. cbn [fst]. unfold in_range in Hr. rewrite Forall_forall in Hr. specialize (Hr k Hk). cbv beta in Hr. lia.
  - exists c. split; [exact Ec|]. unfold has in Hcc. rewrite (set_at_nth (map zlen L) d (zlen l)) in Hcc.
    + destruct Hcc as [H1 H2]. split; [exact H1|]. intros p Hp. rewrite (H2 p Hp). unfold chunk_data. f_equal. apply set_at_nth.
      pose proof (Forall2_len _ _ _ Hp) as Hpl. rewrite map_length in Hpl.
      assert (nth d (gather L p) 0 = znth l (nth d p 0)) as <- by (apply nth_gather'; [congruence|apply nth_l]).
      apply nth_error_nth'. rewrite (length_gather L p) by congruence. rewrite HlenL. exact Hd.
    + rewrite nth_error_map, nth_l. reflexivity.
Qed.
End Concat.

(** *** the variable *)
Section Result.
Context {V : Type} (env : axenv) (Henv : env_ok env) (junk : list Z -> V) (named : list Z) (concat_name : Z).

Lemma matching_self d A : separate A -> matching d A A.
Proof.
  intros H. split; [reflexivity|]. split; [|split].
  - intros j a b Ha Hb. rewrite Ha in Hb. injection Hb as <-. apply prefix_refl.
  - intros j a b _ Ha Hb. rewrite Ha in Hb. injection Hb as <-. apply same_refl.
  - intros j k a b Hne Ha Hb. apply (H k j b a Hb Ha). congruence.
Qed.
Lemma classes_ok d A (vars : list (var axis V)) : Forall (fun x => matching d A (var_axes x)) vars ->
  forallb (fun x => Nat.eqb (length (var_axes x)) (length A) && forallb (fun '(a, b) => prefix (axis_class a) (axis_class b)) (combine A (var_axes x))) vars = true.
Proof.
  intros H. apply forallb_forall. intros x Hx. rewrite Forall_forall in H. destruct (H x Hx) as (H0 & H1 & _). apply andb_true_intro. split; [now apply Nat.eqb_eq|].
  apply forallb_forall. intros [a b] Hab. apply In_nth_error in Hab as (j & Hj). rewrite nth_error_combine in Hj.
  destruct (nth_error A j) as [a'|] eqn:Ea; [|discriminate]. destruct (nth_error (var_axes x) j) as [b'|] eqn:Eb; [|discriminate]. injection Hj as <- <-. now apply (H1 j).
Qed.
Lemma segments_all whole : forall (ys : list (var axis V * axis * (list Z -> V))) o,
  (forall before seg after, map paxis ys = before ++ seg :: after -> segment whole (o + total_len before) seg) -> segments_from whole o ys.
Proof.
  induction ys as [|y ys IH]; intros o H; [exact Logic.I|]. split.
  - specialize (H [] (paxis y) (map paxis ys) eq_refl). cbn in H. now rewrite Z.add_0_r in H.
  - apply IH. intros before seg after E. specialize (H (paxis y :: before) seg after). cbn [map app] in H. rewrite E in H. specialize (H eq_refl).
    unfold total_len in *. cbn [map fold_right] in H. now rewrite <- Z.add_assoc.
Qed.

Theorem concat_spec x0 (rest : list (var axis V)) datas d a0 segs whole :
  Forall2 (responds env) (x0 :: rest) datas ->
  Forall (fun x => matching d (var_axes x0) (var_axes x)) rest ->
  Forall2 (fun x a => nth_error (var_axes x) d = Some a) (x0 :: rest) (a0 :: segs) ->
  Forall tight_axis (a0 :: segs) -> Forall (may_follow a0) segs ->
  axis_concat env (a0 :: segs) = Some whole -> good_axis whole ->
  exists y D, concat_var env junk named concat_name (x0 :: rest) (Some d) = Some y /\
    var_axes y = set_at (var_axes x0) d whole /\ responds env y D /\ joins d (combine (map axis_len (a0 :: segs)) datas) D.
Proof.
  intros Hx Hm Ha Ht Hf Ew Gw. set (A := var_axes x0) in *.
  assert (separate A) as HsA by (inversion Hx as [|? D0 ? ? [K _]]; subst; exact K).
  assert (nth_error A d = Some a0) as Ha0 by now inversion Ha.
  assert (d < length A)%nat as Hd by (apply nth_error_Some; congruence).
  assert (Forall (fun x => matching d A (var_axes x)) (x0 :: rest)) as Hm' by (constructor; [now apply matching_self|exact Hm]).
  assert (Forall (fun b => prefix (axis_class a0) (axis_class b) = true /\ may_follow a0 b) segs) as Hpf.
  { apply Forall_forall. intros b Hb. rewrite Forall_forall in Hf. split; [|now apply Hf]. inversion Ha as [|? ? ? ? _ Ha']; subst.
    destruct (Forall2_In_r _ _ _ _ Ha' Hb) as (x & Hx' & Hxb). rewrite Forall_forall in Hm. destruct (Hm x Hx') as (_ & M1 & _). exact (M1 d a0 b Ha0 Hxb). }
  destruct (whole_spec env a0 segs whole Ew Hpf Ht) as (W1 & W2 & W3 & W4 & _).
  set (ys := combine (combine (x0 :: rest) (a0 :: segs)) datas).
  assert (length (x0 :: rest) = length datas /\ length (x0 :: rest) = length (a0 :: segs)) as [El1 El2] by (split; eapply Forall2_len; eassumption).
  assert (map pvar ys = x0 :: rest /\ map paxis ys = a0 :: segs /\ map (fun y => (axis_len (paxis y), snd y)) ys = combine (map axis_len (a0 :: segs)) datas) as (Y1 & Y2 & Y3).
  { unfold ys. revert El1 El2. generalize (x0 :: rest), (a0 :: segs), datas. clear. induction l as [|x l IH]; intros [|a l0] [|D datas] E1 E2; try discriminate; [auto|].
    cbn in E1, E2. destruct (IH l0 datas) as (I1 & I2 & I3); [lia|lia|]. cbn [combine map pvar paxis fst snd]. rewrite I1, I2, I3. auto. }
  assert (Forall (good_piece env A d) ys) as Hg.
  { apply Forall_forall. intros y Hy. apply In_nth_error in Hy as (i & Hi). unfold ys in Hi. rewrite !nth_error_combine in Hi.
    destruct (nth_error (x0 :: rest) i) as [x|] eqn:Exi; [|discriminate]. destruct (nth_error (a0 :: segs) i) as [a|] eqn:Eai; [|discriminate].
    destruct (nth_error datas i) as [D|] eqn:Edi; [|discriminate]. injection Hi as <-. unfold good_piece, pvar, paxis. cbn [fst snd].
    split; [exact (Forall2_nth_error _ _ _ _ _ _ Hx Exi Edi)|]. split; [rewrite Forall_forall in Hm'; apply Hm'; eapply nth_error_In, Exi|].
    split; [exact (Forall2_nth_error _ _ _ _ _ _ Ha Exi Eai)|]. rewrite Forall_forall in Ht. apply Ht. eapply nth_error_In, Eai. }
  assert (segments_from whole 0 ys) as Hs by (apply segments_all; rewrite Y2; exact W1).
  assert (axis_len whole = fold_right Z.add 0 (map (fun y => axis_len (paxis y)) ys)) as Hlw.
  { rewrite W2. unfold total_len. rewrite <- Y2, map_map. reflexivity. }
  assert (sequence (map (fun x => nth_error (var_axes x) d) (x0 :: rest)) = Some (a0 :: segs)) as Eseg by (apply sequence_Forall2; exact Ha).
  unfold concat_var. fold A. rewrite (classes_ok d A (x0 :: rest) Hm'). cbn [negb]. rewrite (proj2 (Nat.ltb_lt d (length A)) Hd). cbn [bind].
  destruct (Nat.eqb_spec d (length A)); [lia|]. rewrite Eseg. cbn [bind]. rewrite Ew. cbn [bind].
  set (dflt := junk []). exists (Var (set_at A d whole) (GetView (concat_view env junk (x0 :: rest) d))), (joined dflt d 0 (combine (map axis_len (a0 :: segs)) datas)).
  split; [reflexivity|]. split; [reflexivity|]. split.
  - split.
    + cbn [var_axes]. apply (separate_set A d a0 whole HsA Ha0); intros c; apply W4.
    + cbn [var_source var_axes]. intros L HL. rewrite <- Y1, <- Y3. apply (concat_view_spec env Henv junk dflt A d whole Gw Hd L HL ys Hg Hs Hlw).
  - intros before n0 E after Ep q k Hq Hk. refine (joined_joins dflt d 0 _ _ before n0 E after Ep q k Hq Hk).
    apply Forall_forall. intros [n' E'] Hin. apply in_combine_l in Hin. apply in_map_iff in Hin as (a & <- & _). apply axis_len_nonneg.
Qed.
End Result.

(** *** a new axis at the end *)
Lemma firstn_set {B} n (p : list B) j : firstn n (set_at p n j) = firstn n p.
Proof. revert n. induction p as [|x p IH]; intros [|n]; cbn; [reflexivity..|]. now rewrite IH. Qed.
Lemma stack_join {V} (s : list Z) n (F : Z -> list Z -> V) : (n < length s)%nat -> (forall i p j, F i (set_at p n j) = F i p) ->
  forall l chunks, l <> [] -> Forall2 (fun i r => has s n r 1 (fun p _ => F i p)) l chunks ->
  exists c, concat_all chunks n = Some c /\ has s n c (zlen l) (fun p k => F (znth l k) p).
Proof.
  intros Hn HF. induction l as [|i l IH]; intros chunks Hne Hc; [congruence|]. inversion Hc as [|? r ? chunks' Hr Hc']; subst.
  destruct l as [|i' l].
  - inversion Hc'; subst. exists r. split; [reflexivity|]. apply (has_ext s n Hn _ _ _ _ Hr). intros p k Hk. replace k with 0 by lia. reflexivity.
  - destruct (IH chunks' ltac:(discriminate) Hc') as (c & Ec & Hcc).
    destruct (concatenate_has s n Hn r c 1 (zlen (i' :: l)) _ (fun p k => F (znth (i' :: l) k) p) ltac:(lia) ltac:(intros p a b; apply HF) Hr Hcc) as (c' & Ec' & Hc2).
    exists c'. split.
    + inversion Hc' as [|? r' ? chunks'' _ _]; subst. cbn [concat_all] in *. rewrite Ec. exact Ec'.
    + rewrite zlen_cons. rewrite Z.add_comm. apply (has_ext s n Hn _ _ _ _ Hc2). intros p k Hk. destruct (Z.ltb_spec k 1) as [L|L].
      * replace k with 0 by lia. reflexivity.
      * f_equal. symmetry. apply znth_elem. apply elem_cons. right. split; [lia|]. apply elem_znth. lia.
Qed.

Section Stack.
Context {V : Type} (env : axenv) (Henv : env_ok env) (junk : list Z -> V) (named : list Z) (concat_name : Z).
Notation new_axis := (new_axis env named concat_name).

Lemma matching_in_place A B : separate B -> matching (length A) A B -> in_place B A.
Proof.
  intros HB (M0 & M1 & M2 & M3). split; [congruence|]. intros j k a b Ha Hb. destruct (Nat.eqb_spec j k) as [E|E].
  - subst k. apply (M2 j); auto. assert (j < length A)%nat by (apply nth_error_Some; congruence). lia.
  - apply unrelated_same. apply (M3 k j b a); auto.
Qed.
Lemma matching_selection A B L : matching (length A) A B -> Forall2 selection A L -> Forall2 selection B L.
Proof.
  intros (M0 & M1 & M2 & M3) H. pose proof (Forall2_len _ _ _ H) as E. apply Forall2_intro_nth; [congruence|]. intros j b l Hb Hl.
  destruct (nth_error A j) as [a|] eqn:Ea; [|apply nth_error_None in Ea; assert (j < length B)%nat by (apply nth_error_Some; congruence); lia].
  destruct (Forall2_nth_error _ _ _ _ _ _ H Ea Hl) as (K1 & K2 & K3). split; [exact K1|]. split; [|exact K3].
  rewrite (same_len b a); [exact K2|]. apply (M2 j); auto. assert (j < length A)%nat by (apply nth_error_Some; congruence). lia.
Qed.

Theorem stack_spec x0 (rest : list (var axis V)) datas :
  let vars := x0 :: rest in let n := length (var_axes x0) in let new := new_axis (length vars) in
  Forall2 (responds env) vars datas ->
  Forall (fun x => matching n (var_axes x0) (var_axes x)) rest ->
  (forall a, In a (var_axes x0) -> unrelated a new /\ unrelated new a) ->
  find_concat_axis (var_axes x0) (map (@var_axes _ _) rest) = Some n ->
  exists y D, concat_var env junk named concat_name vars None = Some y /\
    var_axes y = var_axes x0 ++ [new] /\ responds env y D /\
    forall q k E, length q = n -> nth_error datas k = Some E -> D (q ++ [Z.of_nat k]) = E q.
Proof.
  intros vars n new Hx Hm Hun Hfind. set (A := var_axes x0) in *.
  assert (separate A) as HsA by (inversion Hx as [|? D0 ? ? [K _]]; subst; exact K).
  assert (Forall (fun x => matching n A (var_axes x)) vars) as Hm' by (constructor; [now apply matching_self|exact Hm]).
  unfold concat_var, vars. fold A. fold vars. rewrite (classes_ok n A vars Hm'). cbn [negb]. fold n. rewrite Hfind. cbn [bind]. rewrite Nat.eqb_refl.
  set (D := fun q : list Z => match nth_error datas (Z.to_nat (nth n q 0)) with Some E => E (firstn n q) | None => junk [] end).
  exists (Var (A ++ [new]) (GetView (stack_view env junk vars n))), D. split; [reflexivity|]. split; [reflexivity|]. split.
  2:{ intros q k E Hq Hk. unfold D. rewrite app_nth2 by lia. rewrite Hq, Nat.sub_diag. cbn [nth]. rewrite Nat2Z.id, Hk. f_equal. rewrite <- Hq. rewrite firstn_app, Nat.sub_diag, firstn_all. cbn. apply app_nil_r. }
  split.
  { cbn [var_axes]. apply separate_snoc; [exact HsA|]. intros b Hb. destruct (Hun b Hb). auto. }
  cbn [var_source var_axes]. intros L HL. apply Forall2_app_inv_l in HL as (L' & Ll & HL' & Hl & ->). inversion Hl as [|? l ? ? Hsel Hnil]; subst. inversion Hnil; subst. clear Hl Hnil.
  pose proof (Forall2_len _ _ _ HL') as HlenL. unfold stack_view.
  assert (remove_axis (view_of_inds (A ++ [new]) (L' ++ [l])) n = view_of_inds A L') as ->.
  { unfold remove_axis, view_of_inds. cbn [vaxes vslices vinds].
    assert (forall B (m : list B) x, length m = n -> firstn n (m ++ [x]) ++ skipn (S n) (m ++ [x]) = m) as K.
    { intros B m x Hmn. rewrite firstn_app, skipn_app. rewrite <- Hmn, Nat.sub_diag, firstn_all, skipn_all2 by lia. cbn [firstn app]. rewrite app_nil_r.
      replace (S (length m) - length m)%nat with 1%nat by lia. cbn. apply app_nil_r. }
    rewrite map_app. cbn [map]. rewrite K by reflexivity. rewrite (K _ L') by (symmetry; exact HlenL). rewrite (K _ (map simplify L')) by (rewrite map_length; symmetry; exact HlenL). reflexivity. }
  cbn [vinds view_of_inds]. rewrite app_nth2 by lia. rewrite <- HlenL. replace (n - length A)%nat with 0%nat by (unfold n; lia). cbn [nth].
  destruct Hsel as (Hne & Hr & Hinc).
  set (s := map zlen (L' ++ [l])).
  assert (Hns : (n < length s)%nat) by (unfold s; rewrite map_length, app_length; cbn; lia).
  set (F := fun (i : Z) (p : list Z) => match nth_error datas (Z.to_nat i) with Some E => E (gather L' (firstn n p)) | None => junk [] end).
  assert (Hvl : zlen vars = axis_len new).
  { unfold new, ConcatModel.new_axis. cbn [axis_len c_vals]. unfold indices_q, zlen. now rewrite map_length, seq_length. }
  assert (exists chunks, sequence (map (fun i => bind (nth_error vars (Z.to_nat i)) (fun x => option_map expand_last (ViewModel.get (axis_ops env) junk (view_of_inds A L') x true true))) l) = Some chunks /\
            Forall2 (fun i r => has s n r 1 (fun p _ => F i p)) l chunks) as (chunks & -> & Hc).
  { clear Hne Hinc. unfold s, F. rewrite map_app. cbn [map]. clear s Hns F. revert Hr. generalize (zlen l) as z. intros z. induction l as [|i l IH]; intros Hr; [exists []; split; [reflexivity|constructor]|]. inversion Hr as [|? ? Hi Hr']; subst.
    destruct (IH Hr') as (chunks & E & Hc). assert (exists x, nth_error vars (Z.to_nat i) = Some x) as (x & Ex).
    { destruct (nth_error vars (Z.to_nat i)) as [x|] eqn:Ex; [eauto|]. apply nth_error_None in Ex. unfold zlen in Hvl. lia. }
    assert (exists Dx, nth_error datas (Z.to_nat i) = Some Dx) as (Dx & EDx).
    { destruct (nth_error datas (Z.to_nat i)) as [Dx|] eqn:EDx; [eauto|]. apply nth_error_None in EDx. pose proof (Forall2_len _ _ _ Hx) as K.
      assert (Z.to_nat i < length vars)%nat by (apply nth_error_Some; congruence). lia. }
    pose proof (Forall2_nth_error _ _ _ _ _ _ Hx Ex EDx) as Rx.
    assert (matching n A (var_axes x)) as Mx by (rewrite Forall_forall in Hm'; apply Hm'; eapply nth_error_In, Ex).
    destruct (get_in_place env junk A L' x Dx true Rx) as (r & Er & Hs & Hv); [eapply matching_selection; eassumption|apply matching_in_place; [apply Rx|exact Mx]|].
    exists (expand_last r :: chunks). cbn [map sequence]. rewrite Ex. cbn [bind]. rewrite Er. cbn [option_map]. rewrite E. split; [reflexivity|]. constructor; [|exact Hc].
    assert (set_at (map zlen L' ++ [z]) n 1 = map zlen L' ++ [1]) as Es.
    { assert (forall (m : list Z) k, length m = k -> set_at (m ++ [z]) k 1 = m ++ [1]) as K by (induction m as [|w m IHm]; intros [|k] Ek; cbn in *; try discriminate; [reflexivity|f_equal; apply IHm; lia]).
      apply K. rewrite map_length. symmetry. exact HlenL. }
    unfold has. rewrite Es. split; [unfold expand_last; cbn [shape]; now rewrite Hs|]. intros p Hp. unfold expand_last. cbn [val]. rewrite EDx.
    apply Forall2_app_inv_l in Hp as (p1 & p2 & Hp1 & Hp2 & ->). inversion Hp2 as [|? k0 ? ? Hk0 Hp3]; subst. inversion Hp3; subst.
    rewrite removelast_app by discriminate. cbn [removelast]. rewrite app_nil_r. rewrite (Hv p1 Hp1). f_equal. f_equal.
    pose proof (Forall2_len _ _ _ Hp1) as Ep. rewrite map_length in Ep. rewrite firstn_app. replace (n - length p1)%nat with 0%nat by (unfold n; lia).
    cbn [firstn]. rewrite app_nil_r. symmetry. apply firstn_all2. unfold n. lia. }
  cbn [bind]. destruct (stack_join s n F Hns) with (3 := Hc) as (c & Ec & Hcc).
  - intros i p j. unfold F. now rewrite firstn_set.
  - exact Hne.
  - exists c. split; [exact Ec|]. unfold has in Hcc. assert (set_at s n (zlen l) = s) as Es.
    { apply set_at_nth. unfold s. rewrite map_app. rewrite nth_error_app2; rewrite map_length; [|unfold n; lia]. replace (n - length L')%nat with 0%nat by (unfold n; lia). reflexivity. }
    rewrite Es in Hcc. destruct Hcc as [H1 H2]. split; [exact H1|]. intros p Hp. rewrite (H2 p Hp). unfold F, D. fold s.
    unfold s in Hp. rewrite map_app in Hp. apply Forall2_app_inv_l in Hp as (p1 & p2 & Hp1 & Hp2 & ->). inversion Hp2 as [|? k0 ? ? Hk0 Hp3]; subst. inversion Hp3; subst.
    pose proof (Forall2_len _ _ _ Hp1) as Ep. rewrite map_length in Ep.
    assert (gather (L' ++ [l]) (p1 ++ [k0]) = gather L' p1 ++ [znth l k0]) as Eg.
    { clear -Ep. revert p1 Ep. induction L' as [|m L' IH]; intros [|w p1] E; try discriminate; [reflexivity|]. cbn [app gather]. f_equal. apply IH. cbn in E. lia. }
    rewrite Eg. assert (length (gather L' p1) = n) as Elg by (rewrite (length_gather L' p1) by congruence; unfold n; lia).
    assert (length p1 = n) as Epn by (unfold n; lia).
    rewrite (app_nth2 p1) by lia. rewrite (app_nth2 (gather L' p1)) by lia. rewrite Elg, Epn, Nat.sub_diag. cbn [nth].
    assert (forall (m : list Z) w, length m = n -> firstn n (m ++ [w]) = m) as Kf by (intros m w Em; rewrite firstn_app, Em, Nat.sub_diag, <- Em, firstn_all; apply app_nil_r).
    rewrite !Kf by assumption. reflexivity.
Qed.

End Stack.

(** *** which axis *)
Section Which.
Context (others : list (list axis)) (Hne : others <> []).
Definition matches_at (i : nat) (a : axis) (o : list axis) : bool := match nth_error o i with Some b => axis_equivalent a b | None => false end.
Lemma forallb_id {B} (f : B -> bool) l : forallb (fun m => m) (map f l) = forallb f l.
Proof. induction l; cbn; congruence. Qed.
Lemma existsb_id {B} (f : B -> bool) l : existsb (fun m => m) (map f l) = existsb f l.
Proof. induction l; cbn; congruence. Qed.
Lemma varying_cons i a t : varying i (a :: t) others =
  if forallb (matches_at i a) others then varying (S i) t others
  else if existsb (matches_at i a) others then None else option_map (cons i) (varying (S i) t others).
Proof. cbn [varying]. rewrite forallb_id, existsb_id. reflexivity. Qed.
Lemma varying_some : forall axes i ds, varying i axes others = Some ds ->
  (forall j a, nth_error axes j = Some a -> forallb (matches_at (i + j) a) others = true \/ existsb (matches_at (i + j) a) others = false) /\
  (forall j a, nth_error axes j = Some a -> In (i + j)%nat ds <-> forallb (matches_at (i + j) a) others = false) /\
  Forall (fun k => (i <= k < i + length axes)%nat) ds.
Proof.
  induction axes as [|a axes IH]; intros i ds E.
  - cbn in E. injection E as <-. split; [|split; [|constructor]]; intros [|j] b H; discriminate.
  - rewrite varying_cons in E. destruct (forallb (matches_at i a) others) eqn:Ef.
    + destruct (IH _ _ E) as (I1 & I2 & I3). split; [|split].
      * intros [|j] b Hb; cbn in Hb; [injection Hb as <-; rewrite Nat.add_0_r; auto|]. rewrite <- Nat.add_succ_comm. now apply I1.
      * intros [|j] b Hb; cbn in Hb; [injection Hb as <-; rewrite Nat.add_0_r, Ef|rewrite <- Nat.add_succ_comm; now apply I2].
        split; [|discriminate]. intros Hin. rewrite Forall_forall in I3. specialize (I3 i Hin). lia.
      * eapply Forall_impl; [|exact I3]. cbn. intros k Hk. lia.
    + destruct (existsb (matches_at i a) others) eqn:Ee; [discriminate|]. destruct (varying (S i) axes others) as [ds'|] eqn:Ev; [|discriminate]. injection E as <-.
      destruct (IH _ _ Ev) as (I1 & I2 & I3). split; [|split].
      * intros [|j] b Hb; cbn in Hb; [injection Hb as <-; rewrite Nat.add_0_r; auto|]. rewrite <- Nat.add_succ_comm. now apply I1.
      * intros [|j] b Hb; cbn in Hb; [injection Hb as <-; rewrite Nat.add_0_r, Ef; split; [reflexivity|now left]|].
        rewrite <- Nat.add_succ_comm. rewrite <- (I2 j b Hb). split; [intros [H|H]; [lia|exact H]|intros H; now right].
      * constructor; [cbn; lia|]. eapply Forall_impl; [|exact I3]. cbn. intros k Hk. lia.
Qed.
Lemma varying_one : forall axes i d, (forall j a, nth_error axes j = Some a -> (i + j)%nat <> d -> forallb (matches_at (i + j) a) others = true) ->
  (forall j a, nth_error axes j = Some a -> (i + j)%nat = d -> forallb (matches_at d a) others = false /\ existsb (matches_at d a) others = false) ->
  varying i axes others = Some (if (Nat.leb i d && Nat.ltb d (i + length axes))%bool then [d] else []).
Proof.
  induction axes as [|a axes IH]; intros i d H1 H2.
  - cbn [varying length]. rewrite Nat.add_0_r. destruct (Nat.leb_spec i d), (Nat.ltb_spec d i); try lia; reflexivity.
  - rewrite varying_cons. assert (IHr : varying (S i) axes others = Some (if (Nat.leb (S i) d && Nat.ltb d (S i + length axes))%bool then [d] else [])).
    { apply IH; intros j b Hb Hj; [specialize (H1 (S j) b Hb)|specialize (H2 (S j) b Hb)]; rewrite <- Nat.add_succ_comm in *; auto. }
    rewrite IHr. cbn [length]. destruct (Nat.eq_dec i d) as [E|E].
    + destruct (H2 0%nat a eq_refl) as [E1 E2]; [lia|]. rewrite E, E1, E2. cbn [option_map].
      destruct (Nat.leb_spec (S d) d), (Nat.leb_spec d d), (Nat.ltb_spec d (d + S (length axes))); try lia; reflexivity.
    + pose proof (H1 0%nat a eq_refl) as E1. rewrite Nat.add_0_r in E1. rewrite (E1 E).
      destruct (Nat.leb_spec (S i) d), (Nat.leb_spec i d), (Nat.ltb_spec d (S i + length axes)), (Nat.ltb_spec d (i + S (length axes))); try lia; reflexivity.
Qed.
Context (axes : list axis).
Lemma agree_all j a : nth_error axes j = Some a -> agree axes others j <-> forallb (matches_at j a) others = true.
Proof.
  intros Ha. split.
  - intros H. apply forallb_forall. intros o Ho. unfold matches_at. destruct (H a o Ha Ho) as (b & -> & E). exact E.
  - intros H b o Hb Ho. rewrite Ha in Hb. injection Hb as <-. rewrite forallb_forall in H. specialize (H o Ho). unfold matches_at in H.
    destruct (nth_error o j) as [c|]; [eauto|discriminate].
Qed.
Lemma differ_all j a : nth_error axes j = Some a -> differ axes others j <-> existsb (matches_at j a) others = false.
Proof.
  intros Ha. split.
  - intros H. apply not_true_iff_false. intros E. apply existsb_exists in E as (o & Ho & E). unfold matches_at in E. destruct (nth_error o j) as [b|] eqn:Eb; [|discriminate].
    specialize (H a o Ha Ho b Eb). congruence.
  - intros H b o Hb Ho c Hc. rewrite Ha in Hb. injection Hb as <-. apply not_true_iff_false. intros E. apply not_true_iff_false in H. apply H. apply existsb_exists.
    exists o. split; [exact Ho|]. unfold matches_at. now rewrite Hc.
Qed.
Lemma both_excluded j a : nth_error axes j = Some a -> forallb (matches_at j a) others = true -> existsb (matches_at j a) others = true.
Proof. intros _ H. destruct others as [|o l]; [congruence|]. cbn in *. apply andb_prop in H as [-> _]. reflexivity. Qed.

Lemma found_axis d : find_concat_axis axes others = Some d <->
  (forall j, (j < length axes)%nat -> j <> d -> agree axes others j) /\ (d = length axes \/ (d < length axes)%nat /\ differ axes others d).
Proof.
  unfold find_concat_axis. split.
  - destruct (varying 0 axes others) as [ds|] eqn:E; [|discriminate]. destruct (varying_some _ _ _ E) as (V1 & V2 & V3). cbn [Nat.add] in V1, V2.
    assert (forall j, (j < length axes)%nat -> ~ In j ds -> agree axes others j) as Hag.
    { intros j Hj Hn. destruct (nth_error axes j) as [a|] eqn:Ea; [|apply nth_error_None in Ea; lia]. apply (agree_all j a Ea).
      specialize (V2 j a Ea). destruct (forallb (matches_at j a) others); [reflexivity|exfalso; apply Hn, V2; reflexivity]. }
    destruct ds as [|d0 [|d1 ds]]; [| |discriminate]; intros [= <-].
    + split; [|now left]. intros j Hj _. apply Hag; auto.
    + assert (d0 < length axes)%nat as Hd by (inversion V3; lia). split; [intros j Hj Hn; apply Hag; [exact Hj|intros [|[]]; congruence]|]. right. split; [exact Hd|].
      destruct (nth_error axes d0) as [a|] eqn:Ea; [|apply nth_error_None in Ea; lia]. apply (differ_all d0 a Ea). destruct (V1 d0 a Ea) as [H|H]; [|exact H].
      pose proof (proj1 (V2 d0 a Ea) (or_introl eq_refl)). congruence.
  - intros [H1 H2]. destruct H2 as [->|[Hd H2]].
    + rewrite (varying_one axes 0 (length axes)).
      * cbn [Nat.add]. destruct (Nat.ltb_spec (length axes) (length axes)); [lia|]. rewrite andb_false_r. reflexivity.
      * intros j a Ha Hj. cbn [Nat.add] in *. apply (agree_all j a Ha). apply H1; [apply nth_error_Some; congruence|exact Hj].
      * intros j a Ha Hj. cbn [Nat.add] in *. assert (j < length axes)%nat by (apply nth_error_Some; congruence). lia.
    + rewrite (varying_one axes 0 d).
      * cbn [Nat.add Nat.leb]. destruct (Nat.ltb_spec d (length axes)); [|lia]. reflexivity.
      * intros j a Ha Hj. cbn [Nat.add] in *. apply (agree_all j a Ha). apply H1; [apply nth_error_Some; congruence|exact Hj].
      * intros j a Ha Hj. cbn [Nat.add] in *. subst j. apply (differ_all d a Ha) in H2. split; [|exact H2].
        apply not_true_iff_false. intros K. pose proof (both_excluded d a Ha K). congruence.
Qed.
End Which.
