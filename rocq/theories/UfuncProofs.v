(** Combining axes and applying functions element by element. *)
From Coq Require Import ZArith List Bool Lia QArith_base QArith Qabs Lqa.
From Verif Require Import CalModel CalSpec SortModel SortSpec MapToProofs TimeMapProofs TimeDateProofs TimeSearchModel TimeSearchSpec IndexModel IndexSpec IndexProofs ArrModel ArrProofs ViewModel ViewSpec ViewProofs
     AxisModel AxisSpec AxisProofs VarOpsModel VarOpsSpec VarOpsProofs ReduceModel ReduceSpec LoopProofs RespondProofs UfuncModel UfuncSpec.
Import ListNotations.
Open Scope Z_scope.

(** *** where is k in l *)
Fixpoint pos_from (n : Z) (l : list Z) (k : Z) : list Z :=
  match l with [] => [] | x :: t => if k =? x then [n] else pos_from (n + 1) t k end.
Definition pos := pos_from 0.
Lemma pos_from_none n l k : ~ In k l -> pos_from n l k = [].
Proof.
  revert n. induction l as [|x l IH]; intros n H; [reflexivity|]. cbn. destruct (Z.eqb_spec k x) as [->|Hne]; [exfalso; apply H; now left|].
  apply IH. intros Hi. apply H. now right.
Qed.
Lemma pos_from_elem n l k i : NoDup l -> elem l i k -> pos_from n l k = [n + i].
Proof.
  revert n i. induction l as [|x l IH]; intros n i Hnd Hi; [now apply elem_nil in Hi|]. inversion Hnd as [|? ? Hx Hnd']; subst. cbn.
  apply elem_cons in Hi as [[-> ->]|[Hi0 Hi]].
  - rewrite Z.eqb_refl. f_equal. lia.
  - destruct (Z.eqb_spec k x) as [->|Hne]; [exfalso; apply Hx; eapply elem_In, Hi|]. rewrite (IH (n + 1) (i - 1)); auto. f_equal. lia.
Qed.
Lemma pos_elem l k i : NoDup l -> elem l i k -> pos l k = [i].
Proof. intros. unfold pos. erewrite pos_from_elem by eassumption. reflexivity. Qed.
Lemma pos_none l k : ~ In k l -> pos l k = [].
Proof. apply pos_from_none. Qed.
Definition positions_in (l : list Z) (n : Z) : list Z := flat_map (pos l) (arange 0 n 1).

Lemma pos_cases l k : NoDup l -> (exists i, elem l i k /\ pos l k = [i]) \/ (~ In k l /\ pos l k = []).
Proof.
  intros Hnd. destruct (in_dec Z.eq_dec k l) as [Hi|Hn]; [left|right; split; [exact Hn|now apply pos_none]].
  apply In_elem in Hi as (i & Hi). exists i. split; [exact Hi|now apply pos_elem].
Qed.
Lemma flat_pos_length l ks : NoDup l -> (length (flat_map (pos l) ks) <= length ks)%nat.
Proof. intros Hnd. induction ks as [|k ks IH]; [reflexivity|]. cbn. rewrite app_length. destruct (pos_cases l k Hnd) as [(i & _ & ->)|[_ ->]]; cbn; lia. Qed.
Lemma flat_pos_full l ks : NoDup l -> length (flat_map (pos l) ks) = length ks -> map (znth l) (flat_map (pos l) ks) = ks /\ in_range (zlen l) (flat_map (pos l) ks).
Proof.
  intros Hnd. induction ks as [|k ks IH]; intros H; [split; [reflexivity|constructor]|]. cbn in *. rewrite app_length in H. pose proof (flat_pos_length l ks Hnd) as Hle.
  destruct (pos_cases l k Hnd) as [(i & Hi & E)|[_ E]]; rewrite E in *; cbn in *; [|lia]. destruct (IH ltac:(lia)) as [IH1 IH2]. split.
  - f_equal; [|exact IH1]. destruct Hi as [_ Hi]. unfold znth. now apply nth_error_nth.
  - constructor; [now apply elem_range in Hi|exact IH2].
Qed.
Lemma flat_pos_NoDup l ks : NoDup l -> NoDup ks -> NoDup (flat_map (pos l) ks).
Proof.
  intros Hnd Hks. induction Hks as [|k ks Hk _ IH]; [constructor|]. cbn. destruct (pos_cases l k Hnd) as [(i & Hi & E)|[_ E]]; rewrite E; cbn; [|exact IH].
  constructor; [|exact IH]. intros Hin. apply in_flat_map in Hin as (k' & Hk' & Hin). destruct (pos_cases l k' Hnd) as [(i' & Hi' & E')|[_ E']]; rewrite E' in Hin; [|destruct Hin].
  destruct Hin as [->|[]]. destruct Hi as [_ Hi], Hi' as [_ Hi']. rewrite Hi in Hi'. injection Hi' as ->. contradiction.
Qed.
Lemma positions_arange n : 0 <= n -> positions_in (arange 0 n 1) n = arange 0 n 1.
Proof.
  intros Hn. unfold positions_in. assert (NoDup (arange 0 n 1)) as Hnd by (apply increasing_NoDup, increasing_arange).
  assert (forall ks, incl ks (arange 0 n 1) -> flat_map (pos (arange 0 n 1)) ks = ks) as H.
  { induction ks as [|k ks IH]; intros Hi; [reflexivity|]. cbn. rewrite IH by (intros y Hy; apply Hi; now right).
    assert (In k (arange 0 n 1)) as Hk by (apply Hi; now left). apply In_elem in Hk as (j & Hj). pose proof Hj as Hj'. apply elem_arange01 in Hj' as [-> _].
    rewrite (pos_elem _ _ _ Hnd Hj). reflexivity. }
  apply H, incl_refl.
Qed.

(** *** the three kinds of mapping *)
Lemma close_in_tolerance r x B : (0 <= r)%Q -> (r <= 1 # 100000)%Q -> (Qabs (x - B) <= r * Qabs B)%Q -> np_close x B.
Proof.
  intros H0 H1 H. unfold np_close. eapply Qle_trans; [exact H|]. pose proof (Qabs_nonneg B) as HB. 
  apply Qle_trans with ((1 # 100000) * Qabs B)%Q; [now apply Qmult_le_compat_r|]. lra.
Qed.
Lemma matches_pos v l r ks ind : separated v -> (0 <= r)%Q -> (r <= 1 # 100000)%Q -> in_range (zlen v) l -> NoDup l -> in_range (zlen v) ks ->
  matches (pick 0%Q v l) r (pick 0%Q v ks) ind -> ind = flat_map (pos l) ks.
Proof.
  intros Hs H0 H1 Hl Hnd. revert ind. induction ks as [|k ks IH]; intros ind Hk M; [now inversion M|]. inversion Hk as [|? ? Hk1 Hk2]; subst.
  assert (elem v k (nth (Z.to_nat k) v 0%Q)) as Ek by (split; [lia|apply nth_error_nth'; unfold zlen in Hk1; lia]).
  cbn [pick map] in M. cbn [flat_map]. inversion M as [|B b i ind' Hn M'|B b ind' Hn M']; subst.
  - rewrite (IH ind' Hk2 M'). destruct Hn as (x & Hx & Hc & _). apply elem_pick in Hx as (j & Hj & Hx); [|exact Hl].
    apply (close_in_tolerance r) in Hc; [|assumption|assumption]. assert (j = k) as -> by (eapply separated_elem; eassumption).
    now rewrite (pos_elem l k i Hnd Hj).
  - rewrite (IH ind Hk2 M'). rewrite pos_none; [reflexivity|]. intros Hi. apply In_elem in Hi as (j & Hj).
    assert (elem (pick 0%Q v l) j (nth (Z.to_nat k) v 0%Q)) as Hy by (apply elem_pick; eauto).
    specialize (Hn j _ Hy). setoid_replace (nth (Z.to_nat k) v 0 - nth (Z.to_nat k) v 0)%Q with 0%Q in Hn by ring.
    change (Qabs 0) with 0%Q in Hn. pose proof (Qmult_le_0_compat _ _ H0 (Qabs_nonneg (nth (Z.to_nat k) v 0%Q))). lra.
Qed.
Lemma mapped_pos rows l ks ind : NoDup rows -> in_range (zlen rows) l -> NoDup l -> in_range (zlen rows) ks ->
  TimeSearchSpec.mapped (pick [] rows l) (pick [] rows ks) ind -> ind = flat_map (pos l) ks.
Proof.
  intros Hr Hl Hnd. revert ind. induction ks as [|k ks IH]; intros ind Hk M; [now inversion M|]. inversion Hk as [|? ? Hk1 Hk2]; subst.
  assert (elem rows k (nth (Z.to_nat k) rows [])) as Ek by (split; [lia|apply nth_error_nth'; unfold zlen in Hk1; lia]).
  cbn [pick map] in M. cbn [flat_map]. inversion M as [|? i ? ind' Hn M'|? ? ? Hn M']; subst.
  - rewrite (IH ind' Hk2 M'). assert (elem (pick [] rows l) i (nth (Z.to_nat k) rows [])) as Hx by exact Hn. apply elem_pick in Hx as (j & Hj & Hx); [|exact Hl].
    assert (j = k) as -> by exact (NoDup_at rows j k _ Hr Hx Ek). now rewrite (pos_elem l k i Hnd Hj).
  - rewrite (IH ind Hk2 M'). rewrite pos_none; [reflexivity|]. intros Hi. apply Hn. apply In_elem in Hi as (j & Hj). eapply elem_In. apply elem_pick; [exact Hl|eauto].
Qed.
Lemma rows_pos rows l ks : NoDup rows -> in_range (zlen rows) l -> NoDup l -> in_range (zlen rows) ks ->
  flat_map (fun v => match row_index (pick [] rows l) v with Some i => [i] | None => [] end) (pick [] rows ks) = flat_map (pos l) ks.
Proof.
  intros Hr Hl Hnd. induction ks as [|k ks IH]; intros Hk; [reflexivity|]. inversion Hk as [|? ? Hk1 Hk2]; subst. cbn [pick map flat_map].
  fold (pick [] rows ks). rewrite IH by exact Hk2. f_equal.
  assert (elem rows k (nth (Z.to_nat k) rows [])) as Ek by (split; [lia|apply nth_error_nth'; unfold zlen in Hk1; lia]).
  destruct (pos_cases l k Hnd) as [(i & Hi & ->)|[Hn ->]].
  - rewrite (row_index_elem _ (pick_NoDup [] rows l Hr Hnd Hl) i); [reflexivity|]. apply elem_pick; eauto.
  - assert (~ In (nth (Z.to_nat k) rows []) (pick [] rows l)) as Hno.
    { intros H. apply In_elem in H as (j & H). apply elem_pick in H as (m & Hm & H); [|exact Hl]. apply Hn. assert (m = k) as <- by exact (NoDup_at rows m k _ Hr H Ek). eapply elem_In, Hm. }
    revert Hno. generalize (pick [] rows l). clear. induction l as [|r t IH]; intros H; [reflexivity|]. cbn. destruct (zlist_eqb r _) eqn:E.
    + apply zlist_eqb_eq in E. exfalso. apply H. now left.
    + destruct (row_index t _); [|reflexivity]. exfalso. assert (~ In (nth (Z.to_nat k) rows []) t) as H' by (intros K; apply H; now right). specialize (IH H'). discriminate.
Qed.

Lemma sliced_inverse a l b m : good_axis a -> in_range (axis_len a) l -> in_range (zlen l) m -> map (znth l) m = arange 0 (axis_len a) 1 ->
  sliced a l b -> sliced b m a.
Proof.
  intros G Hl Hm E H. destruct a as [c|n|t], b as [c'|n'|t']; cbn [sliced axis_len] in *; try tauto.
  - destruct H as (H1 & H2 & H3 & H4 & H5 & H6 & H7). destruct G as (G1 & G2 & G3). repeat split; auto.
    + rewrite H5, pick_pick, E, pick_arange by assumption. reflexivity.
    + rewrite H6. rewrite (aux_pick_pick (c_aux c) (length (c_vals c)) l m G2 Hl Hm), E. clear -G2.
      induction G2 as [|[k v] aux Hv _ IH]; [reflexivity|]. cbn [map]. rewrite <- IH. cbn in Hv.
      replace (zlen (c_vals c)) with (zlen v) by (unfold zlen; lia). now rewrite pick_arange.
  - destruct H as (H1 & H2 & H3). repeat split; auto. rewrite H3, pick_pick, E, pick_arange by assumption. reflexivity.
  - pose proof (time_length t G) as HL. destruct H as (H1 & H2 & H3 & H4 & H5 & H6 & H7). repeat split; auto.
    + rewrite H6, pick_pick, E, pick_arange by assumption. reflexivity.
    + rewrite H7, pick_pick, E; [|unfold zlen in *; now rewrite HL|exact Hm]. replace (zlen (t_dates t)) with (zlen (t_vals t)) by (unfold zlen; lia). now rewrite pick_arange.
Qed.
Lemma sliced_trans a l b m c : good_axis a -> in_range (axis_len a) l -> in_range (zlen l) m -> sliced a l b -> sliced b m c -> sliced a (map (znth l) m) c.
Proof.
  intros G Hl Hm H H'. destruct a as [a|a|a], b as [b|b|b], c as [c|c|c]; cbn [sliced axis_len] in *; try tauto.
  - destruct H as (H1 & H2 & H3 & H4 & H5 & H6 & H7), H' as (K1 & K2 & K3 & K4 & K5 & K6 & K7). destruct G as (G1 & G2 & G3). repeat split; try congruence.
    + rewrite K5, H5. now apply pick_pick.
    + rewrite K6, H6. now apply (aux_pick_pick _ (length (c_vals a))).
  - destruct H as (H1 & H2 & H3), H' as (K1 & K2 & K3). repeat split; try congruence. rewrite K3, H3. now apply pick_pick.
  - pose proof (time_length a G) as HL. destruct H as (H1 & H2 & H3 & H4 & H5 & H6 & H7), H' as (K1 & K2 & K3 & K4 & K5 & K6 & K7). repeat split; try congruence.
    + rewrite K6, H6. now apply pick_pick.
    + rewrite K7, H7. apply pick_pick; [|exact Hm]. unfold zlen in *. now rewrite HL.
Qed.

(** the same comparison in the other direction *)
Lemma sliced_same_rev a l b : good_axis a -> in_range (axis_len a) l -> NoDup l -> sliced a l b -> axis_same b a = true ->
  l = arange 0 (axis_len a) 1.
Proof.
  destruct a as [c|n|t], b as [c'|n'|t']; cbn [sliced axis_same axis_len]; intros G Hl Hnd H E; try tauto.
  - destruct H as (_ & _ & _ & _ & H & _). destruct G as [Gs _]. apply orb_true_iff in E as [E|E].
    + unfold coord_is in E. repeat (apply andb_true_iff in E as [E ?]). rewrite H in H0. apply qlist_eqb_elem in H0 as [L K].
      rewrite zlen_pick in L. apply same_vals_arange; auto. intros k p q Hp Hq. right. apply Qeq_close. eapply K; eassumption.
    + apply coord_eq_close in E as [L K]. rewrite H in L, K. rewrite zlen_pick in L.
      apply same_vals_arange; auto. intros k p q Hp Hq. destruct K as [K|K]; [right|left]; eapply K; eassumption.
  - apply (sliced_same (NonCoord n) l (NonCoord n') G Hl H). cbn [axis_same]. unfold noncoord_eq in *. apply andb_true_iff in E as [E E3]. apply andb_true_iff in E as [E1 E2].
    unfold class_eqb in *. rewrite andb_comm in E1. rewrite E1. apply zlist_eqb_eq in E2. rewrite E2, zlist_eqb_refl.
    destruct (list_eq_dec _ _ _) as [E'|]; [|discriminate]. rewrite E'. destruct (list_eq_dec _ _ _); [reflexivity|congruence].
  - destruct H as (H1 & H2 & H3 & H4 & H5 & H6 & H7). unfold time_eq in E.
    apply andb_true_iff in E as [E E4]. apply andb_true_iff in E as [E E3]. apply andb_true_iff in E as [E1 E2].
    apply Nat.eqb_eq in E3. unfold records in E4. rewrite H5, H6 in E4. rewrite H6 in E3. unfold pick in E3. rewrite map_length in E3.
    destruct G as (Gs & Gv & Gk & Gvals & Gnd & Gb).
    apply is_arange; [apply zlen_nonneg|unfold zlen; lia|]. intros k x K.
    pose proof (in_range_elem _ _ _ _ Hl K) as Rx. pose proof (elem_range _ _ _ K) as Rk.
    destruct (IndexProofs.elem_ex (t_dates t) x Rx) as (q & Hq). destruct (IndexProofs.elem_ex (t_dates t) k) as (p & Hp).
    { unfold zlen in *. lia. }
    eapply (NoDup_at (records (t_mask t) t)); [exact Gnd| |].
    + apply (elem_map (project (t_mask t))). exists q. split; [exact Hq|reflexivity].
    + apply (elem_map (project (t_mask t))). exists p. split; [exact Hp|]. apply rows_eq.
      * now rewrite !project_len.
      * unfold records in Gb. rewrite Forall_forall in Gb. apply Gb. apply in_map. eapply IndexProofs.elem_In. exact Hp.
      * eapply (Forall2_forallb (fun r s => forallb (fun '(x, y) => zclose x y) (combine r s))).
        -- exact E4.
        -- apply (elem_map (project (t_mask t))). exists q. split; [|reflexivity]. apply elem_pick; [exact Hl|]. exists x. split; [exact K|exact Hq].
        -- apply (elem_map (project (t_mask t))). exists p. split; [exact Hp|reflexivity].
Qed.

Section Env.
Context (env : axenv) (Henv : env_ok env).

(** *** an axis mapped to the axis it was taken from *)
Lemma rev_map a l b : tight_axis a -> tight_axis b -> restricts a l b -> axis_map_to env b a = Some (positions_in l (axis_len a)).
Proof.
  intros [Ga Ta] [Gb Tb] (_ & Hl & Hnd & H).
  assert (in_range (axis_len a) (arange 0 (axis_len a) 1)) as Har by apply range_arange.
  destruct (axis_same b a) eqn:Es.
  { pose proof (sliced_same_rev a l b Ga Hl Hnd H Es) as E.
    assert (sliced b (arange 0 (axis_len a) 1) a) as H'.
    { apply (sliced_inverse a l b); auto; rewrite E.
      - rewrite zlen_arange by (destruct a; cbn; apply zlen_nonneg). exact Har.
      - apply arange_znth. exact Har. }
    rewrite (sliced_map env Henv b (arange 0 (axis_len a) 1) a Gb); [|  |exact H'].
    - rewrite E, positions_arange; [reflexivity|]. destruct a; cbn; apply zlen_nonneg.
    - rewrite (sliced_len a l b Ga H). rewrite E at 1. rewrite zlen_arange; [exact Har|]. destruct a; cbn; apply zlen_nonneg. }
  destruct a as [c|n|t], b as [c'|n'|t']; try (cbn in H; tauto).
  - cbn [axis_map_to]. destruct H as (H1 & H2 & H3 & H4 & H5 & H6 & H7).
    assert ((if comparable (c_class c') (axis_class (Coord c))
       then if axis_eq (Coord c') (Coord c) then Some (arange 0 (zlen (c_vals c')) 1)
            else SortModel.map_to (c_vals c') (axis_vals (Coord c)) (c_rtol c')
       else None) = Some (positions_in l (axis_len (Coord c)))) as K.
    { cbn [axis_class axis_vals]. rewrite H2, comparable_refl. cbn [axis_eq]. cbn [axis_same] in Es. apply orb_false_iff in Es as [_ Es]. rewrite Es.
      destruct Gb as (Gb1 & _). destruct (MapToProofs.map_to_spec (c_vals c') (c_vals c) (c_rtol c') (separated_distinct _ Gb1)) as (ind & E & M).
      rewrite E. f_equal. rewrite H5 in M. rewrite <- (pick_arange 0%Q (c_vals c)) in M at 2. 
      apply (matches_pos (c_vals c) l (c_rtol c') _ ind (proj1 Ga) H7 Tb Hl Hnd Har M). }
    unfold coord_map_to. rewrite H1, H3, Z.eqb_refl. destruct (c_kind c); exact K.
  - cbn [axis_map_to]. unfold noncoord_map_to. cbn in *. destruct H as (H1 & H2 & H3). rewrite H1, H2, H3, prefix_refl, common_keys_self.
    destruct Ga as (G1 & G2 & G3). destruct (n_keys n) as [|k0 ks] eqn:Ek; [congruence|]. rewrite <- Ek in *.
    assert (forall rows, Forall (fun r => length r = length (n_keys n)) rows -> map (pick_keys (n_keys n) (n_keys n)) rows = rows) as Hp.
    { induction 1 as [|r rows Hr _ IH]; [reflexivity|]. cbn. rewrite IH, pick_keys_self by exact Hr. reflexivity. }
    rewrite (Hp (n_rows n)) by exact G3. rewrite (Hp (pick [] (n_rows n) l)).
    + f_equal. unfold positions_in. etransitivity; [|apply (rows_pos (n_rows n) l _ G1 Hl Hnd Har)]. now rewrite pick_arange.
    + apply Forall_forall. intros r Hr. apply IndexProofs.In_elem in Hr as (k & Hr). apply elem_pick in Hr as (i & _ & Hr); [|exact Hl].
      rewrite Forall_forall in G3. apply G3. eapply IndexProofs.elem_In. exact Hr.
  - destruct H as (H1 & H2 & H3 & H4 & H5 & H6 & H7).
    destruct (time_axis_map_to env Henv t' t Gb H1) as (ind & E & M); [rewrite H5; apply mask_sub_refl|]. rewrite E. f_equal.
    rewrite H5, H6, project_pick in M by exact Hl. destruct Ga as (Gs & Gv & Gk & Gvals & Gnd & Gbo).
    rewrite <- (pick_arange [] (map (project (t_mask t)) (t_dates t))) in M at 2.
    assert (zlen (map (project (t_mask t)) (t_dates t)) = zlen (t_dates t)) as EL by (unfold zlen; now rewrite map_length). rewrite EL in M.
    apply (mapped_pos (records (t_mask t) t) l _ ind Gnd); [|exact Hnd| |exact M]; unfold records; rewrite EL; [exact Hl|exact Har].
Qed.

Lemma restricts_good a l b : restricts a l b -> good_axis b.
Proof. intros (G & Hl & Hnd & H). eapply sliced_good; eassumption. Qed.
Lemma restricts_refl a : good_axis a -> restricts a (arange 0 (axis_len a) 1) a.
Proof. intros G. split; [exact G|]. split; [apply range_arange|]. split; [apply increasing_NoDup, increasing_arange|]. now apply sliced_refl. Qed.
Lemma NoDup_map_znth l m : NoDup l -> NoDup m -> in_range (zlen l) m -> NoDup (map (znth l) m).
Proof. intros. apply (pick_NoDup 0 l m); assumption. Qed.
Lemma restricts_trans a l b m c : restricts a l b -> restricts b m c -> restricts a (map (znth l) m) c.
Proof.
  intros (Ga & Hl & Hnl & H) (Gb & Hm & Hnm & H'). rewrite (sliced_len a l b Ga H) in Hm. split; [exact Ga|]. split; [|split].
  - unfold in_range in *. apply Forall_map. eapply Forall_impl; [|exact Hm]. intros k Hk. cbv beta in Hk. rewrite Forall_forall in Hl. apply Hl. unfold znth. apply nth_In. unfold zlen in Hk. lia.
  - now apply NoDup_map_znth.
  - eapply sliced_trans; eassumption.
Qed.
Lemma restricts_inverse a l b : restricts a l b -> zlen (positions_in l (axis_len a)) = axis_len a -> restricts b (positions_in l (axis_len a)) a.
Proof.
  intros Hr E. pose proof (restricts_good _ _ _ Hr) as Gb. destruct Hr as (Ga & Hl & Hnd & H). unfold positions_in in *.
  assert (0 <= axis_len a) as H0 by (destruct a; cbn; apply zlen_nonneg).
  destruct (flat_pos_full l (arange 0 (axis_len a) 1) Hnd) as [H1 H2].
  { pose proof (zlen_arange _ H0). unfold zlen in *. lia. }
  split; [exact Gb|]. split; [rewrite (sliced_len a l b Ga H); exact H2|]. split; [apply flat_pos_NoDup; [exact Hnd|apply increasing_NoDup, increasing_arange]|].
  eapply sliced_inverse; eassumption.
Qed.
Lemma restricts_same a l b : restricts a l b -> axis_same a b = true \/ axis_same b a = true -> restricts b (arange 0 (axis_len a) 1) a.
Proof.
  intros Hr Hs. assert (l = arange 0 (axis_len a) 1) as E.
  { destruct Hr as (Ga & Hl & Hnd & H). destruct Hs as [Hs|Hs]; [now apply (sliced_same a l b)|now apply (sliced_same_rev a l b)]. }
  assert (0 <= axis_len a) as H0 by (destruct a; cbn; apply zlen_nonneg).
  rewrite <- (positions_arange (axis_len a) H0). rewrite <- E at 1. apply (restricts_inverse a l b Hr). rewrite E, positions_arange, zlen_arange by exact H0. reflexivity.
Qed.
Lemma restricts_related a l b : restricts a l b -> ~ unrelated a b.
Proof. intros (Ga & Hl & Hnd & H) Hu. apply (unrelated_map env) in Hu. rewrite (sliced_map env Henv a l b Ga Hl H) in Hu. discriminate. Qed.
Lemma restricts_class a l b : restricts a l b -> axis_class b = axis_class a /\ explicit_class b = explicit_class a.
Proof.
  intros (_ & _ & _ & H). destruct a as [a|a|a], b as [b|b|b]; cbn in *; try tauto. 
  - destruct H as (_ & H & _ & H' & _). rewrite H, H'. auto.
Qed.

(** *** can_map *)
Lemma can_map_unrelated a b : unrelated a b -> unrelated b a -> can_map env a b = Some None.
Proof.
  intros H1 H2. assert (forall p c, unrelated p c -> unrelated c p -> can_map_pc env p c = Some None) as H.
  { intros p c K1 K2. unfold can_map_pc. pose proof (unrelated_same _ _ K1) as E.
    assert (axis_eq p c = false) as ->.
    { destruct p, c; cbn in *; try exact E. now apply orb_false_iff in E. }
    destruct (match explicit_class p with Some _ => _ | None => _ end); [reflexivity|].
    now rewrite (unrelated_map env _ _ K1), (unrelated_map env _ _ K2). }
  unfold can_map. destruct (prefix _ _); [now apply H|]. destruct (prefix _ _); [now apply H|reflexivity].
Qed.
Definition both_to (a b c : axis) : Prop := (exists l, restricts a l c) /\ (exists l, restricts b l c).
Lemma can_map_related a b : tight_axis a -> tight_axis b -> (exists l, restricts a l b) \/ (exists l, restricts b l a) ->
  exists c, can_map env a b = Some (Some c) /\ (c = a \/ c = b) /\ both_to a b c.
Proof.
  intros Ta Tb Hr. assert (axis_class b = axis_class a /\ explicit_class b = explicit_class a) as [Ec Ee].
  { destruct Hr as [[l Hr]|[l Hr]]; apply restricts_class in Hr as [H1 H2]; auto. }
  unfold can_map. rewrite Ec, prefix_refl. unfold can_map_pc. rewrite Ee.
  destruct (axis_eq a b) eqn:E.
  { assert (axis_same a b = true) as Es by (destruct a, b; cbn in *; try exact E; rewrite E; apply orb_true_r).
    exists a. split; [reflexivity|]. split; [now left|]. split; [exists (arange 0 (axis_len a) 1); apply restricts_refl, Ta|].
    destruct Hr as [[l Hr]|[l Hr]]; [|now exists l]. eexists. apply (restricts_same a l b Hr). now left. }
  assert ((match explicit_class a with Some c => match explicit_class a with Some d => negb (c =? d) | None => false end | None => false end) = false) as ->.
  { destruct (explicit_class a); [now rewrite Z.eqb_refl|reflexivity]. }
  destruct Hr as [[l Hr]|[l Hr]].
  - rewrite (rev_map a l b Ta Tb Hr). pose proof Hr as (Ga & Hl & Hnd & H). rewrite (sliced_map env Henv a l b Ga Hl H).
    destruct (Z.eqb_spec (zlen (positions_in l (axis_len a))) (axis_len a)) as [El|_].
    + exists a. split; [reflexivity|]. split; [now left|]. split; [exists (arange 0 (axis_len a) 1); apply restricts_refl, Ta|]. eexists. apply (restricts_inverse a l b Hr El).
    + rewrite (sliced_len a l b Ga H), Z.eqb_refl. exists b. split; [reflexivity|]. split; [now right|]. split; [now exists l|].
      exists (arange 0 (axis_len b) 1). apply restricts_refl, Tb.
  - pose proof Hr as (Gb & Hl & Hnd & H). rewrite (sliced_map env Henv b l a Gb Hl H). rewrite (sliced_len b l a Gb H), Z.eqb_refl.
    exists a. split; [reflexivity|]. split; [now left|]. split; [exists (arange 0 (axis_len a) 1); apply restricts_refl, Ta|now exists l].
Qed.
End Env.
