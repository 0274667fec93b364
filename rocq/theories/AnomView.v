(** Lemmas for data and their climatologies: element-wise operations of a variable with a climatology of it; from_trend. *)
From Coq Require Import ZArith List Bool Lia ZifyBool Permutation QArith_base Qcanon.
From Verif Require Import CalModel CalSpec TimeSearchModel TimeSearchSpec TimeSearchProofs TimeMapProofs TimeDateProofs SortSpec IndexModel IndexSpec IndexProofs ArrModel ArrProofs
  ViewModel ViewSpec ViewProofs AxisModel AxisSpec AxisProofs VarOpsModel VarOpsSpec VarOpsProofs NumModel NumProofs ReduceModel ReduceSpec StencilModel StencilSpec StencilProofs
  RespondProofs LoopProofs ConcatProofs WindowModel WindowProofs UfuncModel UfuncSpec UfuncProofs UfuncView ClimModel ClimSpec ClimSum ClimAxis ClimChunk ClimView ClimTrend AnomModel AnomSpec AnomProofs.
Import ListNotations.
Open Scope Z_scope.
Notation zlen := IndexSpec.zlen.
Notation znth := ArrModel.znth.

Lemma own_view {V} env (Henv : env_ok env) (junk : list Z -> V) A f L E : separate A -> Forall2 selection A L ->
  (exists r, f (view_of_inds A L) = Some r /\ array_is r (map zlen L) (fun p => E (gather L p))) ->
  exists r, ViewModel.get (axis_ops env) junk (view_of_inds A L) (Var A (GetView f)) true true = Some r /\ array_is r (map zlen L) (fun p => E (gather L p)).
Proof.
  intros Hsep HL (r & Er & Hr). pose proof (Forall2_len _ _ _ HL) as Hlen.
  set (js := combine (seq 0 (length A)) (map (fun a => arange 0 (axis_len a) 1) A)).
  assert (map fst js = seq 0 (length A)) as Hf by (apply map_fst_combine; now rewrite seq_length, map_length).
  assert (map (fun '(i, ind) => map (znth ind) (nth i L [])) js = L) as Em.
  { apply nth_error_ext'. intros i. unfold js. rewrite nth_error_map, nth_error_combine, nth_error_seq, nth_error_map.
    destruct (Nat.ltb_spec i (length A)) as [Hi|Hi].
    - destruct (nth_error A i) as [a|] eqn:Ea; [|apply nth_error_None in Ea; lia]. assert (nth_error L i = Some (nth i L [])) as El by (apply nth_error_nth'; lia).
      cbn. rewrite El. f_equal. apply arange_znth. exact (proj1 (proj2 (Forall2_nth_error _ _ _ _ _ _ HL Ea El))).
    - assert (nth_error L i = None) as -> by (apply nth_error_None; lia). reflexivity. }
  destruct (get_derived_fetch env Henv junk A L (Var A (GetView f)) E js) as (w & Ew & Hw).
  - cbv zeta. rewrite Em. unfold fetch. cbn [vinds view_of_inds].
    assert (map np_unique L = L) as ->.
    { clear -HL. induction HL as [|a l A L H _ IH]; [reflexivity|]. cbn [map]. rewrite IH. f_equal. apply unique_increasing, H. }
    assert (forallb (fun '(u, ind) => np_all_eq u ind) (combine L L) = true) as ->.
    { clear. induction L as [|l L IH]; [reflexivity|]. cbn. now rewrite np_all_eq_refl, IH. }
    unfold read. cbn [var_source var_axes]. exists r. split; [exact Er|exact Hr].
  - eapply Forall2_impl; [|exact HL]. intros a l (H1 & H2 & _). auto.
  - exact (own_derived A Hsep).
  - rewrite Hf. apply seq_NoDup.
  - exists w. split; [exact Ew|]. rewrite Hf in Hw. rewrite outshape_full in Hw by (intros i Hi; rewrite map_length in Hi; apply in_seq; lia).
    destruct Hw as [S1 V1]. split; [exact S1|]. intros p Hp. rewrite (V1 p Hp). unfold derived_data. f_equal. unfold js.
    assert (position (map axis_len A) (gather L p)) as Hq.
    { apply gather_position; [|exact Hp]. clear -HL. induction HL as [|a l A L H _ IH]; constructor; [apply H|exact IH]. }
    pose proof (Forall2_len _ _ _ Hq) as Hql. rewrite map_length in Hql.
    assert (seq 0 (length A) = seq 0 (length (map (fun a => arange 0 (axis_len a) 1) A))) as -> by now rewrite map_length.
    rewrite (gather_combine_seq junk) by (rewrite map_length; lia). now rewrite (gather_axis_aranges junk).
Qed.

Lemma selection_range A L : Forall2 selection A L -> Forall2 (fun b l => l <> [] /\ in_range (axis_len b) l) A L.
Proof. intros H. eapply Forall2_impl; [|exact H]. intros a l (H1 & H2 & _). auto. Qed.
Lemma selection_position A L p : Forall2 selection A L -> position (map zlen L) p -> position (map axis_len A) (gather L p).
Proof. intros HL. apply gather_position. induction HL as [|a l A L H _ IH]; constructor; [apply H|exact IH]. Qed.

(** *** a variable and a climatology of it *)
Section Combined.
Context (env : axenv) (Henv : env_ok env) (junk : list Z -> num) (op : list num -> num).
Notation ops := (axis_ops env).
Notation get := (ViewModel.get ops junk).
Context (x : var axis num) (D : list Z -> num) (Hx : responds env x D).
Notation A := (var_axes x).
Context (Htight : Forall tight_axis A) (ti : nat) (t : taxis) (Ht : nth_error A ti = Some (Time t)) (Honly : forall i s, nth_error A i = Some (Time s) -> i = ti)
  (u : taxis) (gm : list Z) (Hco : coarser u t gm) (Hmap : axis_map_to env (Time u) (Time t) = Some gm)
  (m : var axis num) (D' : list Z -> num) (Em : var_axes m = clim_axes A ti u).
Definition both (q : list Z) : num := op [D q; D' (set_at q ti (znth gm (nth ti q 0)))].

Lemma clim_array L r : Forall2 selection A L -> array_is r (outshape (map zlen L) (map fst (clim_js A ti gm))) (fun p => derived_data D' (clim_js A ti gm) (gather L p)) ->
  array_is r (map zlen L) (fun p => (fun q => D' (set_at q ti (znth gm (nth ti q 0)))) (gather L p)).
Proof.
  intros HL Hr. pose proof (Forall2_len _ _ _ HL) as Hlen. rewrite clim_fst in Hr. rewrite outshape_full in Hr by (intros i Hi; rewrite map_length in Hi; apply in_seq; lia).
  destruct Hr as [H1 H2]. split; [exact H1|]. intros p Hp. rewrite (H2 p Hp). unfold derived_data. f_equal. apply (clim_position A ti t Ht Honly u gm).
  now apply selection_position.
Qed.
Lemma combined_view L : Forall2 selection A L ->
  (exists r, get (view_of_inds A L) m true true = Some r /\ array_is r (outshape (map zlen L) (map fst (clim_js A ti gm))) (fun p => derived_data D' (clim_js A ti gm) (gather L p))) ->
  exists r, ufunc_view env junk op [AVar x; AVar m] (view_of_inds A L) = Some r /\ array_is r (map zlen L) (fun p => both (gather L p)).
Proof.
  intros HL (rm & Erm & Hrm). apply (clim_array L rm HL) in Hrm.
  destruct (responds_part env Henv junk x D L Hx HL) as (rx & Erx & Hrx).
  unfold ufunc_view. cbn [map]. rewrite Erx, Erm. cbn [sequence bind].
  destruct (apply_two op (map zlen L) L D (fun q => D' (set_at q ti (znth gm (nth ti q 0)))) rx rm Hrx Hrm) as (w & Ew & Hw). exists w. split; [exact Ew|exact Hw].
Qed.
Lemma combined_var : ufunc_var env junk op [AVar x; AVar m] = Some (Var A (GetView (ufunc_view env junk op [AVar x; AVar m]))).
Proof.
  unfold ufunc_var, variables. cbn [flat_map app map]. rewrite Em. rewrite (combine_clim A (proj1 Hx) ti t Ht Honly u gm Hco env Henv Htight Hmap). reflexivity.
Qed.
Lemma combined_lazy L : responds env m D' -> Forall2 selection A L -> mixed (t_mask u) t (nth ti L []) ->
  exists r, get (view_of_inds A L) (Var A (GetView (ufunc_view env junk op [AVar x; AVar m]))) true true = Some r /\ array_is r (map zlen L) (fun p => both (gather L p)).
Proof.
  intros Hm HL Hmix. apply (own_view env Henv junk A _ L both (proj1 Hx) HL). apply combined_view; [exact HL|].
  pose proof (Forall2_len _ _ _ HL) as Hlen. pose proof (ti_lt A ti t Ht) as Hlt.
  apply (get_related_any env Henv junk A L m D' (clim_js A ti gm) Hm (selection_range _ _ HL)).
  - rewrite Em. apply (clim_related A (proj1 Hx) ti t Ht Honly u gm Hco).
  - apply clim_NoDup.
  - apply (clim_various A ti t Ht Honly u gm L HL). apply (mixed_various t u gm Hco); [|exact Hmix].
    assert (nth_error L ti = Some (nth ti L [])) as El by (apply nth_error_nth'; lia).
    pose proof (Forall2_nth_error _ _ _ _ _ _ HL Ht El) as (_ & H2 & _). rewrite <- time_len; [exact H2|apply Hco].
Qed.
Lemma combined_loaded : getable env m D' -> responds env (Var A (GetView (ufunc_view env junk op [AVar x; AVar m]))) both.
Proof.
  intros Hm. split; [exact (proj1 Hx)|]. cbn [var_axes var_source]. intros L HL. apply combined_view; [exact HL|].
  apply (get_related env Henv junk A L m D' (clim_js A ti gm) Hm (selection_range _ _ HL)).
  - rewrite Em. apply (clim_related A (proj1 Hx) ti t Ht Honly u gm Hco).
  - apply clim_NoDup.
Qed.
End Combined.

(** *** the line through the points *)
Lemma related_shift c B a ii : related B a ii -> unrelated a c -> related (c :: B) a (S (fst ii), snd ii).
Proof.
  intros [(H1 & b & Hb & H2 & H3)|(u & t & -> & Hb & H2 & H3)] Hc.
  - left. split; [exact H1|]. exists b. split; [exact Hb|]. split; [exact H2|]. intros [|i'] b' Hi Hb'; cbn [fst] in *; [cbn in Hb'; injection Hb' as <-; exact Hc|].
    apply (H3 i' b'); [congruence|exact Hb'].
  - right. exists u, t. split; [reflexivity|]. split; [exact Hb|]. split; [exact H2|]. intros [|i'] b' Hi Hb'; cbn [fst] in *; [cbn in Hb'; injection Hb' as <-; exact Hc|].
    apply (H3 i' b'); [congruence|exact Hb'].
Qed.

Lemma derived_data_app (D : list Z -> num) js js' q : derived_data D (js ++ js') q = D (map (fun '(i, ind) => znth ind (nth i q 0)) js ++ map (fun '(i, ind) => znth ind (nth i q 0)) js').
Proof. unfold derived_data. now rewrite map_app. Qed.

Section Line.
Context (env : axenv) (Henv : env_ok env) (junk : list Z -> num).
Notation ops := (axis_ops env).
Notation get := (ViewModel.get ops junk).
Context (A : list axis) (coef : axis) (Hsep : separate (A ++ [coef])) (H2 : axis_len coef = 2) (Hcoef : forall s, coef <> Time s)
  (ti : nat) (t : taxis) (Ht : nth_error A ti = Some (Time t)) (Honly : forall i s, nth_error A i = Some (Time s) -> i = ti)
  (u : taxis) (gm : list Z) (Hco : coarser u t gm) (Hmap : axis_map_to env (Time u) (Time t) = Some gm)
  (y : var axis num) (D' : list Z -> num) (Hy : getable env y D') (Ey : var_axes y = clim_axes A ti u ++ [coef]).

Lemma A_sep : separate A.
Proof. intros i j a b Ha Hb. apply (Hsep i j); rewrite nth_error_app1; auto; apply nth_error_Some; congruence. Qed.
Lemma coef_unrelated i a : nth_error A i = Some a -> unrelated a coef /\ unrelated coef a.
Proof.
  intros Ha. assert (i < length A)%nat as Hi by (apply nth_error_Some; congruence).
  assert (nth_error (A ++ [coef]) i = Some a) as H1 by (rewrite nth_error_app1; assumption).
  assert (nth_error (A ++ [coef]) (length A) = Some coef) as H3 by (rewrite nth_error_app2, Nat.sub_diag by lia; reflexivity).
  split; [apply (Hsep i (length A)); auto; lia|apply (Hsep (length A) i); auto; lia].
Qed.
Definition coef_js : list (nat * list Z) := map (fun ii => (S (fst ii), snd ii)) (clim_js A ti gm) ++ [(0%nat, arange 0 2 1)].
Lemma coef_related : Forall2 (related (coef :: A)) (var_axes y) coef_js.
Proof.
  rewrite Ey. apply Forall2_app.
  - apply Forall2_map_r. apply Forall2_intro_nth; [exact (Forall2_len _ _ _ (clim_related A A_sep ti t Ht Honly u gm Hco))|]. intros k a ii Ha Hj.
    pose proof (Forall2_nth_error _ _ _ _ _ _ (clim_related A A_sep ti t Ht Honly u gm Hco) Ha Hj) as Hr. apply related_shift; [exact Hr|].
    unfold clim_axes in Ha. rewrite nth_error_set_at in Ha by exact (ti_lt A ti t Ht). destruct (Nat.eqb_spec ti k) as [Ek|Hne].
    + injection Ha as <-. destruct coef as [| |s] eqn:Ec; try exact Logic.I. exfalso. now apply (Hcoef s).
    + exact (proj1 (coef_unrelated k a Ha)).
  - constructor; [|constructor]. left. split; [cbn [snd]; rewrite H2; apply range_arange|]. exists coef. split; [reflexivity|]. split; [right; split; [reflexivity|cbn [snd]; now rewrite H2]|].
    intros [|i'] b' Hi Hb'; [cbn in Hi; congruence|]. exact (proj2 (coef_unrelated i' b' Hb')).
Qed.
Lemma coef_fst : map fst coef_js = map S (seq 0 (length A)) ++ [0%nat].
Proof. unfold coef_js. rewrite map_app, map_map. cbn [map fst]. f_equal. rewrite <- (clim_fst A ti gm), map_map. reflexivity. Qed.
Lemma coef_NoDup : NoDup (map fst coef_js).
Proof.
  rewrite coef_fst. apply NoDup_app_intro; [apply FinFun.Injective_map_NoDup; [intros a b; congruence|apply seq_NoDup]|constructor; [intros []|constructor]|].
  intros i Hi [<-|[]]. apply in_map_iff in Hi as (j & Hj & _). discriminate.
Qed.

Definition line_at (q : list Z) : num :=
  let r := set_at q ti (znth gm (nth ti q 0)) in add (mul (D' (r ++ [1])) (Fin (time_seconds t (nth ti q 0)))) (D' (r ++ [0])).

Context (secs : var axis num) (Esec : var_axes secs = [Time t]) (Hsec : responds env secs (fun p => Fin (time_seconds t (nth 0 p 0)))).
Lemma seconds_read L : Forall2 selection A L ->
  exists r, get (view_of_inds A L) secs true true = Some r /\ value_of (map zlen L) (fun q => Fin (time_seconds t (nth ti q 0))) L (Array r).
Proof.
  intros HL. assert (good_axis (Time t)) as Gt by apply Hco. 
  set (js := [(ti, arange 0 (zlen (t_dates t)) 1)]).
  assert (Forall2 (located A) (var_axes secs) js) as Hloc.
  { rewrite Esec. constructor; [|constructor]. rewrite <- (time_len t Gt).
    assert (restricts (Time t) (arange 0 (axis_len (Time t)) 1) (Time t)) as Hr by (apply restricts_refl; exact Gt).
    split; [|split; [apply Hr|exists (Time t); split; [exact Ht|exact Hr]]]. split; [apply range_arange|]. exists (Time t). split; [exact Ht|]. split; [right; auto|].
    intros i' b' Hi Hb'. exact (A_sep ti i' (Time t) b' Ht Hb' (not_eq_sym Hi)). }
  assert (NoDup (map fst js)) as Hnd by (constructor; [intros []|constructor]).
  destruct (get_located env Henv junk A L secs _ js Hsec HL Hloc Hnd) as (r & Er & Hr). exists r. split; [exact Er|].
  pose proof (located_value junk A L secs _ js r HL Hloc Hr) as Hv. destruct Hv as [V1 V2]. split; [exact V1|]. intros p Hp. rewrite (V2 p Hp).
  unfold derived_data. cbn [map js nth]. pose proof (selection_position A L p HL Hp) as Hq.
  assert (0 <= nth ti (gather L p) 0 < zlen (t_dates t)) as B.
  { rewrite <- (time_len t Gt). apply (position_nth (map axis_len A) _ ti _ Hq). rewrite nth_error_map, Ht. reflexivity. }
  rewrite znth_arange1 by lia. reflexivity.
Qed.
Lemma line_view L : Forall2 selection A L ->
  exists r, from_trend_view env junk y coef secs (view_of_inds A L) = Some r /\ array_is r (map zlen L) (fun p => line_at (gather L p)).
Proof.
  intros HL. unfold from_trend_view. pose proof (Forall2_len _ _ _ HL) as Hlen. pose proof (ti_lt A ti t Ht) as Hlt.
  rewrite (add_axis_inds env junk A L 0 coef (arange 0 2 1) whole).
  2:{ eapply Forall2_impl; [|exact HL]. intros a l H. apply H. } 2:{ rewrite H2. reflexivity. } 2:{ rewrite H2. apply range_arange. }
  cbn [bind insert_at].
  destruct (get_related env Henv junk (coef :: A) (arange 0 2 1 :: L) y D' coef_js Hy) as (c & Ec & Hc).
  { constructor; [split; [discriminate|rewrite H2; apply range_arange]|exact (selection_range A L HL)]. }
  { exact coef_related. } { exact coef_NoDup. }
  rewrite Ec. cbn [bind]. rewrite coef_fst, outshape_full in Hc.
  2:{ intros i Hi. cbn [length map] in Hi. rewrite map_length in Hi. apply in_app_iff. destruct i as [|i]; [right; now left|left]. apply in_map, in_seq. lia. }
  destruct Hc as [Sc Vc]. cbn [map] in Sc. unfold first_index. rewrite Sc. change (zlen (arange 0 2 1)) with 2. cbn [bind].
  assert (forall k, 0 <= k < 2 -> forall p, position (map zlen L) p -> val c (k :: p) = D' (set_at (gather L p) ti (znth gm (nth ti (gather L p) 0)) ++ [k])) as Vk.
  { intros k Hk p Hp. rewrite Vc.
    - cbn [gather]. unfold coef_js. rewrite derived_data_app. f_equal. f_equal.
      + rewrite map_map. rewrite <- (clim_position A ti t Ht Honly u gm (gather L p)) by now apply selection_position. apply map_ext. intros [i ind]. reflexivity.
      + cbn [map nth fst snd]. f_equal. change (znth (arange 0 2 1) (znth (arange 0 2 1) k) = k). rewrite !znth_arange1; try lia; rewrite ?znth_arange1; lia.
    - constructor; [change (0 <= k < 2); exact Hk|exact Hp]. }
  destruct (seconds_read L HL) as (s & Es & Hs).
  change (0 <? 2) with true. change (1 <? 2) with true. cbn [bind]. rewrite Es. cbn [bind].
  set (R := fun q => set_at q ti (znth gm (nth ti q 0))).
  destruct (apply_op_spec np_multiply (map zlen L) L [fun q => D' (R q ++ [1]); fun q => Fin (time_seconds t (nth ti q 0))]
     [Array (Arr (map zlen L) (fun p => val c (1 :: p))); Array s]) as (w & Ew & Hw).
  { constructor; [|constructor; [exact Hs|constructor]]. apply (full_value (map zlen L) (fun q => D' (R q ++ [1])) L). split; [reflexivity|]. intros p Hp. apply (Vk 1); [lia|exact Hp]. }
  { cbn [flat_map app shape]. apply bcast_shapes_full; [discriminate| |].
    - constructor; [apply fits_refl|]. constructor; [exact (proj1 Hs)|constructor].
    - intros i n Hi. exists (map zlen L). split; [now left|exact Hi]. }
  rewrite Ew. cbn [bind].
  destruct (apply_two np_plus (map zlen L) L (fun q => mul (D' (R q ++ [1])) (Fin (time_seconds t (nth ti q 0)))) (fun q => D' (R q ++ [0])) w (Arr (map zlen L) (fun p => val c (0 :: p)))) as (z & Ez & Hz).
  { exact Hw. } { split; [reflexivity|]. intros p Hp. apply (Vk 0); [lia|exact Hp]. }
  exists z. split; [exact Ez|exact Hz].
Qed.
End Line.
