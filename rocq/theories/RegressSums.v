(** The sums over the pairs of values of two variables. *)
From Coq Require Import ZArith List Bool Lia QArith_base Permutation.
From Verif Require Import SortSpec IndexModel IndexSpec IndexProofs ArrModel ArrProofs ViewModel ViewSpec ViewProofs FibreProofs
     AxisModel AxisSpec AxisProofs VarOpsModel VarOpsSpec VarOpsProofs NumModel NumProofs ReduceModel ReduceSpec ReduceProofs ReduceKinds StatProofs RespondProofs LoopProofs BlockProofs
     UfuncModel UfuncSpec UfuncProofs UfuncView RegressModel RegressSpec RegressAxes.
From Verif Require UfuncProps IntgrProofs.
Import ListNotations.
Open Scope Z_scope.
Open Scope list_scope.
Notation zlen := IndexSpec.zlen.

(** ** the last axes are reduced over *)
Lemma gone_tail n m : gone_axes (n + m) (seq n m) = repeat false n ++ repeat true m.
Proof.
  unfold gone_axes. rewrite seq_app, map_app. cbn [plus]. f_equal.
  - transitivity (map (fun _ => false) (seq 0 n)); [|generalize 0%nat as k; clear; induction n as [|n IH]; intros k; cbn; [reflexivity|now rewrite IH]]. apply map_ext_in. intros i Hi. apply in_seq in Hi. apply not_true_is_false. intros K. apply existsb_exists in K as (j & Hj & E). apply in_seq in Hj. apply Nat.eqb_eq in E. lia.
  - transitivity (map (fun _ => true) (seq n m)); [|generalize n; clear n; induction m as [|m IH]; intros n; cbn; [reflexivity|now rewrite IH]].
    apply map_ext_in. intros i Hi. apply existsb_exists. exists i. split; [exact Hi|apply Nat.eqb_refl].
Qed.
Lemma dropped_tail {A} (l r : list A) n m : length l = n -> length r = m -> dropped (repeat false n ++ repeat true m) (l ++ r) = l.
Proof.
  intros <- <-. induction l as [|x l IH]; cbn [length repeat app dropped]; [|now rewrite IH]. induction r as [|y r IH]; [reflexivity|]. cbn [length repeat dropped]. exact IH.
Qed.
Lemma fibl_tail (J : list (list Z)) K k n m : length J = n -> length k = n -> length K = m -> fibl (repeat false n ++ repeat true m) (J ++ K) k = map (fun x => [x]) k ++ K.
Proof.
  intros <-. revert k. induction J as [|l J IH]; intros [|x k] Hk HK; try discriminate.
  - cbn [length repeat app map]. revert m HK. induction K as [|l K IH]; intros m <-; [reflexivity|]. cbn [length repeat fibl]. f_equal. now apply IH.
  - cbn [length repeat app fibl map]. f_equal. apply IH; [now injection Hk|exact HK].
Qed.
Lemma product_tail (k : list Z) (K : list (list Z)) : product (map (fun x => [x]) k ++ K) = map (fun r => k ++ r) (product K).
Proof.
  induction k as [|x k IH]; cbn [map app].
  - symmetry. apply map_id.
  - cbn [product flat_map]. rewrite IH, app_nil_r, map_map. reflexivity.
Qed.
Lemma fibre_tail s t k : position s k -> fibre (repeat false (length s) ++ repeat true (length t)) (s ++ t) k = map (fun r => k ++ r) (positions t).
Proof.
  intros Hk. rewrite fibre_fibl.
  - rewrite map_app, fibl_tail with (n := length s) (m := length t); [|apply map_length|symmetry; exact (Forall2_len _ _ _ Hk)|apply map_length].
    now rewrite product_tail.
  - now rewrite !app_length, !repeat_length.
  - now rewrite dropped_tail.
Qed.

(** ** tiles *)
Lemma tile_fits {V} (r : arr V) t : fits (shape r) t -> Forall (fun n => 0 < n) t ->
  shape (tile r (map (fun '(s1, s2) => s1 / s2) (combine t (shape r)))) = t /\
  forall p, position t p -> val (tile r (map (fun '(s1, s2) => s1 / s2) (combine t (shape r)))) p
                            = val r (map (fun '(m, x) => if m =? 1 then 0 else x) (combine (shape r) p)).
Proof.
  unfold tile. cbn [shape val]. intros H Hp. split.
  - revert Hp. induction H as [|m n s t Hmn _ IH]; intros Hp; [reflexivity|]. inversion Hp as [|? ? P1 P2]; subst. cbn [combine map]. f_equal; [|now apply IH].
    destruct Hmn as [->| ->]; [rewrite Z.div_same by lia; lia|rewrite Z.div_1_r; lia].
  - intros p Hpos. f_equal. revert p Hpos Hp. induction H as [|m n s t Hmn _ IH]; intros p Hpos Hp; [reflexivity|]. inversion Hpos as [|? x ? p' Hx Hpos']; subst. inversion Hp as [|? ? P1 P2]; subst. cbn [combine map]. f_equal; [|now apply IH].
    destruct (Z.eqb_spec m 1) as [->|Hm]; [apply Z.mod_1_r|]. destruct Hmn as [->|Hmn]; [|congruence]. apply Z.mod_small. exact Hx.
Qed.

Lemma selection_pos (axes : list axis) c : Forall2 selection axes c -> Forall (fun n => 0 < n) (map zlen c).
Proof.
  induction 1 as [|a l A C [H _] _ IH]; constructor; [|exact IH]. unfold zlen. destruct l; [congruence|cbn; lia].
Qed.

Lemma positions_ne s : Forall (fun n => 0 < n) s -> positions s <> [].
Proof.
  intros H. assert (In (map (fun _ => 0) s) (positions s)) as K; [|intros E; now rewrite E in K]. apply in_product. induction H as [|n s Hn _ IH]; cbn; constructor; [|exact IH].
  apply IntgrProofs.In_arange1. lia.
Qed.

Section Sums.
Context (env : axenv) (Henv : env_ok env) (MAX : Z) (HMAX : 1 <= MAX) (junk : list Z -> num) (X Y : var axis num) (DX DY : list Z -> num)
  (HX : responds env X DX) (HY : responds env Y DY) (Hfit : fitting X Y) (outer over : list axis).
Notation All := (var_axes X ++ var_axes Y).
Notation I := (outer ++ over).
Context (Hsep : separate I) (Hincl : incl I All) (jx jy : list (nat * list Z))
  (Hjx : Forall2 (located I) (var_axes X) jx) (Hnx : NoDup (map fst jx)) (Hjy : Forall2 (located I) (var_axes Y) jy) (Hny : NoDup (map fst jy)).
Definition EX := derived_data DX jx.
Definition EY := derived_data DY jy.
Definition both (u v : num) : num := mul u v.

Lemma paired_spec c : Forall2 selection I c -> exists data xa ya xya,
  sequence (map (fun x => get (axis_ops env) junk (view_of_inds I c) x true true) [X; Y]) = Some data /\ paired data = Some (xa, ya, xya) /\
  array_is xa (map zlen c) (fun p => if is_nan (mul (EX (gather c p)) (EY (gather c p))) then NaN else EX (gather c p)) /\
  array_is ya (map zlen c) (fun p => if is_nan (mul (EX (gather c p)) (EY (gather c p))) then NaN else EY (gather c p)) /\
  array_is xya (map zlen c) (fun p => mul (EX (gather c p)) (EY (gather c p))).
Proof.
  intros Hc. destruct (get_located env Henv junk I c X DX jx HX Hc Hjx Hnx) as (rx & Ex & Hrx). destruct (get_located env Henv junk I c Y DY jy HY Hc Hjy Hny) as (ry & Ey & Hry).
  pose proof (located_value junk I c X DX jx rx Hc Hjx Hrx) as Vx. pose proof (located_value junk I c Y DY jy ry Hc Hjy Hry) as Vy.
  exists [rx; ry]. cbn [map sequence]. rewrite Ex, Ey.
  destruct (apply_op_spec (fun l => match l with [a; b] => mul a b | _ => NaN end) (map zlen c) c [EX; EY] [Array rx; Array ry]) as (r & Er & Hr).
  { constructor; [exact Vx|constructor; [exact Vy|constructor]]. }
  { cbn [flat_map app]. apply bcast_shapes_full; [discriminate| |].
    - constructor; [exact (proj1 Vx)|constructor; [exact (proj1 Vy)|constructor]].
    - intros i n Hn. assert (exists b, nth_error I i = Some b) as (b & Hb).
      { destruct (nth_error I i) eqn:E; [eauto|]. apply nth_error_None in E. assert (i < length (map zlen c))%nat as Hlt by (apply nth_error_Some; congruence).
        rewrite map_length, <- (Forall2_len _ _ _ Hc) in Hlt. lia. }
      pose proof (Hincl b (nth_error_In _ _ Hb)) as Hba. apply in_app_iff in Hba as [Hba|Hba].
      + exists (shape rx). split; [now left|]. rewrite (proj1 Hrx). apply nth_outshape; [exact Hn|]. exact (located_own I _ jx i b Hsep Hjx Hb Hba).
      + exists (shape ry). split; [right; now left|]. rewrite (proj1 Hry). apply nth_outshape; [exact Hn|]. exact (located_own I _ jy i b Hsep Hjy Hb Hba). }
  unfold paired. rewrite Er. destruct Hr as [Sr Hr]. cbn [map] in Hr. destruct Vx as [Fx Vx], Vy as [Fy Vy]. rewrite Sr.
  destruct (tile_fits rx _ Fx (selection_pos _ _ Hc)) as [Tx1 Tx2]. destruct (tile_fits ry _ Fy (selection_pos _ _ Hc)) as [Ty1 Ty2].
  eexists. eexists. eexists. split; [reflexivity|]. split; [reflexivity|]. unfold put_where. split; [|split; [|now split]].
  - split; [exact Tx1|]. intros p Hp. cbn [val]. rewrite (Hr p Hp), (Tx2 p Hp), (Vx p Hp). reflexivity.
  - split; [exact Ty1|]. intros p Hp. cbn [val]. rewrite (Hr p Hp), (Ty2 p Hp), (Vy p Hp). reflexivity.
Qed.

Lemma pair_sum_spec f g :
  (forall xa ya xya s hx hy, array_is xa s (fun p => if is_nan (mul (hx p) (hy p)) then NaN else hx p) -> array_is ya s (fun p => if is_nan (mul (hx p) (hy p)) then NaN else hy p) ->
     array_is xya s (fun p => mul (hx p) (hy p)) -> array_is (f (xa, ya, xya)) s (fun p => g (hx p) (hy p))) ->
  exists r, pair_sum env junk MAX X Y outer over f = Some r /\
    array_is r (map axis_len outer) (fun k => val r k) /\
    forall k, position (map axis_len outer) k -> summable (map (fun r => g (EX (k ++ r)) (EY (k ++ r))) (positions (map axis_len over))) ->
      val r k = np_nansum (map (fun r => g (EX (k ++ r)) (EY (k ++ r))) (positions (map axis_len over))).
Proof.
  intros Hf. destruct Hfit as [Hf1 _].
  assert (Forall good_axis I) as Hg by (apply Forall_forall; intros a Ha; exact (proj1 (proj1 (Hf1 a (Hincl a Ha))))).
  assert (forall a, In a I -> 0 < axis_len a) as Hp by (intros a Ha; exact (proj2 (Hf1 a (Hincl a Ha)))).
  set (idx := seq (length outer) (length over)).
  assert (gone I idx = repeat false (length outer) ++ repeat true (length over)) as Eg by (unfold gone, idx; rewrite app_length; apply gone_tail).
  assert (kept_axes I idx = outer) as Ek by (rewrite kept_dropped; change (gone_axes (length I) idx) with (gone I idx); rewrite Eg; now apply dropped_tail).
  assert (NoDup idx) as Hnd by apply seq_NoDup.
  assert (Forall (fun i => (i < length I)%nat) idx) as Hlt by (apply Forall_forall; intros i Hi; apply in_seq in Hi; rewrite app_length; lia).
  set (h := fun q => g (EX q) (EY q)).
  destruct (accumulate_view env Henv junk MAX HMAX I Hsep Hg idx (fun i a _ Ha => Hp a (nth_error_In _ _ Ha))
     (fun l w => Onan (map h l) w) (fun l b => Rnan (map h l) b) NaN (fun o b => np_nansum [o; b]) [X; Y]
     (fun data => match paired data with Some t => Some (np_reduce np_nansum (f t) idx) | None => None end))
    with (L := map (fun a => arange 0 (axis_len a) 1) outer) as (r & Er & Sr & Vr).
  - intros l l' w P. apply Onan_perm. now apply Permutation_map.
  - apply Onan_init.
  - intros l1 w l2 b H1 H2 H3. rewrite map_app. apply Onan_comb; [exact H1| |exact H3]. destruct l2; [congruence|discriminate].
  - intros c Hc. destruct (paired_spec c Hc) as (data & xa & ya & xya & Hd & Hpd & Ha & Hb & Hab).
    destruct (block_reduced junk (Var I (Values (Arr [] junk))) idx Hnd Hlt np_nansum h (f (xa, ya, xya)) Rnan c Rnan_one Rnan_cat Hc) as (b' & Hb1 & Hb2).
    { exact (Hf xa ya xya (map zlen c) (fun p => EX (gather c p)) (fun p => EY (gather c p)) Ha Hb Hab). }
    exists data. eexists. exists b'. split; [exact Hd|]. split; [rewrite Hpd; reflexivity|]. split; [exact Hb1|]. exact Hb2.
  - rewrite Ek. clear -Hp. assert (forall a, In a outer -> 0 < axis_len a) as H by (intros a Ha; apply Hp; apply in_app_iff; now left). clear Hp. induction outer as [|a l IH]; constructor.
    + assert (0 < axis_len a) as Ha by (apply H; now left). split; [|split].
      * intros E. pose proof (zlen_arange1 0 (axis_len a) ltac:(lia)) as K. rewrite E in K. cbn in K. lia.
      * apply Forall_forall. intros x Hx. apply IntgrProofs.In_arange1 in Hx. lia.
      * apply increasing_arange.
    + apply IH. intros b Hb. apply H. now right.
  - rewrite Ek in Er. exists r. unfold pair_sum. rewrite full_view_eq. fold idx. split; [exact Er|].
    assert (map zlen (map (fun a => arange 0 (axis_len a) 1) outer) = map axis_len outer) as El.
    { rewrite map_map. apply map_ext_in. intros a Ha. rewrite zlen_arange1; [lia|]. assert (0 < axis_len a) by (apply Hp; apply in_app_iff; now left). lia. }
    rewrite El in *. split; [split; [exact Sr|reflexivity]|]. intros k Hk Hs. specialize (Vr k Hk).
    rewrite Eg, map_app in Vr. rewrite (gather_axis_aranges (V:=num) junk outer k Hk) in Vr.
    rewrite <- (map_length axis_len outer), <- (map_length axis_len over) in Vr. rewrite fibre_tail in Vr by exact Hk. rewrite map_map in Vr. change (fun x => h (k ++ x)) with (fun r => g (EX (k ++ r)) (EY (k ++ r))) in Vr.
    destruct (Vr Hs) as [V1 V2]. rewrite <- V1. symmetry. apply n2z_id. apply V2.
    intros E. apply map_eq_nil in E. revert E. apply positions_ne. apply Forall_forall. intros n Hn. apply in_map_iff in Hn as (a & <- & Ha). apply Hp, in_app_iff. now right.
Qed.
End Sums.
