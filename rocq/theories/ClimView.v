(** Lemmas for the climatologies: the pieces of the data that are read. *)
From Coq Require Import ZArith List Bool Lia ZifyBool Permutation QArith_base.
From Verif Require Import CalModel CalSpec TimeSearchModel TimeSearchSpec TimeSearchProofs TimeMapProofs TimeDateProofs SortSpec IndexModel IndexSpec IndexProofs ArrModel ArrProofs
  ViewModel ViewSpec ViewProofs AxisModel AxisSpec AxisProofs VarOpsModel VarOpsSpec VarOpsProofs NumModel NumProofs ReduceModel ReduceSpec StencilModel StencilSpec StencilProofs IntgrProofs
  RespondProofs ChunkProofs LoopProofs BlockProofs FlattenProofs InterpView SmoothView CompositeProofs ConcatProofs ClimModel ClimSpec ClimSum ClimAxis ClimChunk.
Import ListNotations.
Open Scope Z_scope.
Notation zlen := IndexSpec.zlen.
Notation znth := ArrModel.znth.

Lemma find_first_at {B C} (f : B -> option C) l i x c : nth_error l i = Some x -> f x = Some c -> (forall j y, (j < i)%nat -> nth_error l j = Some y -> f y = None) ->
  find_first f l = Some (i, c).
Proof.
  revert i. induction l as [|y l IH]; intros [|i] Hx Hf Hb; cbn in Hx; try discriminate.
  - injection Hx as ->. cbn. now rewrite Hf.
  - cbn. rewrite (Hb 0%nat y); [|lia|reflexivity]. rewrite (IH i); [reflexivity|exact Hx|exact Hf|]. intros j z Hj Hz. apply (Hb (S j)); [lia|exact Hz].
Qed.
Lemma time_index_at axes ti t : nth_error axes ti = Some (Time t) -> (forall i s, nth_error axes i = Some (Time s) -> i = ti) -> time_index axes = Some (ti, t).
Proof.
  intros H Ho. unfold time_index. apply (find_first_at _ _ _ (Time t)); [exact H|reflexivity|]. intros j y Hj Hy. destruct y as [| |s]; try reflexivity.
  apply Ho in Hy. lia.
Qed.
Lemma replace_inds env axes L d a l : Forall2 (fun a l => in_range (axis_len a) l) axes L -> in_range (axis_len a) l -> (d < length axes)%nat ->
  replace_axis env (view_of_inds axes L) d a (SList l) = Some (view_of_inds (set_at axes d a) (set_at L d l)).
Proof.
  intros H Hl Hd. unfold replace_axis. cbn [vaxes vslices view_of_inds]. apply slices_inds; [now apply Forall2_set_both|].
  revert d Hd. induction H as [|b m axes L Hb H IH]; intros [|d] Hd; cbn in Hd; try lia; cbn [set_at map combine].
  - constructor; [reflexivity|]. clear IH Hd. induction H as [|b' m' axes L Hb' H IH]; constructor; [|exact IH]. apply expand_simplify. eapply Forall_impl; [|exact Hb']; cbn; lia.
  - constructor; [apply expand_simplify; eapply Forall_impl; [|exact Hb]; cbn; lia|]. apply IH. lia.
Qed.
Lemma take_time env a l : match axis_take env a l with Time _ => match a with Time _ => True | _ => False end | _ => match a with Time _ => False | _ => True end end.
Proof. unfold axis_take. destruct (qlist_eqb _ _), a; exact Logic.I. Qed.
Lemma unrelated_time (t u : taxis) a : (match a with Time _ => False | _ => True end) -> t_class u = t_class t -> unrelated a (Time t) -> unrelated a (Time u).
Proof. intros Ha E. destruct a as [c|n|s]; cbn; [|auto|destruct Ha]. now rewrite E. Qed.

Lemma runs_set ks ti l : Forall (fun n => 0 <= n) ks -> runs (set_at (upto ks) ti l) = upto (set_at ks ti (zlen l)).
Proof.
  intros H. assert (runs (upto ks) = upto ks) as E0.
  { unfold runs, upto. rewrite map_map. apply map_ext_in. intros n Hn. apply (proj1 (Forall_forall _ _) H) in Hn. now rewrite zlen_arange. }
  revert ti. induction H as [|n ks Hn H IH]; intros [|ti]; try reflexivity; cbn [upto map set_at runs].
  - f_equal. injection E0 as _ E0. exact E0.
  - f_equal; [now rewrite zlen_arange|]. apply IH. injection E0 as _ E0. exact E0.
Qed.
Lemma zmap_piece l : forall ks ti se n, Forall2 (fun '(s, e) n => 0 <= s < e /\ e <= n) se (set_at ks ti n) -> (ti < length ks)%nat ->
  zmap (map znth (set_at (upto ks) ti l)) (aranges se) = set_at (aranges se) ti (map (znth l) (nth ti (aranges se) [])).
Proof.
  assert (forall s e n, 0 <= s -> e <= n -> map (znth (arange 0 n 1)) (arange s e 1) = arange s e 1) as Ea.
  { intros s e n Hs He. apply arange_znth, Forall_forall. intros x Hx. apply In_arange1 in Hx. lia. }
  assert (forall ks se, Forall2 (fun '(s, e) n => 0 <= s < e /\ e <= n) se ks -> zmap (map znth (upto ks)) (aranges se) = aranges se) as E0.
  { intros ks se H. induction H as [|[s e] n se ks Hx H IH]; [reflexivity|]. unfold zmap, upto, aranges in *. cbn [map combine]. rewrite Ea by lia. f_equal. exact IH. }
  induction ks as [|k ks IH]; intros ti se n H Hl; [cbn in Hl; lia|]. destruct ti as [|ti]; cbn [set_at] in H; inversion H as [|[s e] ? se' ? Hx H']; subst.
  - specialize (E0 _ _ H'). unfold zmap, upto, aranges in *. cbn [map set_at combine nth]. f_equal. exact E0.
  - specialize (IH ti se' n H'). unfold zmap, upto, aranges in *. cbn [map set_at combine nth]. rewrite Ea by lia. f_equal. apply IH. cbn in Hl. lia.
Qed.
Lemma Forall2_of_map {A B} (f : A -> option B) l r : sequence (map f l) = Some r <-> Forall2 (fun a b => f a = Some b) l r.
Proof.
  revert r. induction l as [|a l IH]; intros r; cbn [map sequence].
  - split; [intros H; injection H as <-; constructor|intros H; inversion H; reflexivity].
  - destruct (f a) as [b|] eqn:Ef.
    + destruct (sequence (map f l)) as [r'|] eqn:Er.
      * split; [intros H; injection H as <-; constructor; [exact Ef|now apply IH]|]. intros H. inversion H; subst. apply IH in H4. congruence.
      * split; [discriminate|]. intros H. inversion H; subst. apply IH in H4. discriminate.
    + split; [discriminate|]. intros H. inversion H; subst. congruence.
Qed.
Lemma Forall2_build {A B} (R : A -> B -> Prop) l : (forall a, In a l -> exists b, R a b) -> exists r, Forall2 R l r.
Proof.
  induction l as [|a l IH]; intros H; [exists []; constructor|]. destruct (H a (or_introl eq_refl)) as (b & Hb). destruct IH as (r & Hr); [intros; apply H; now right|].
  exists (b :: r). now constructor.
Qed.

Section View.
Context (env : axenv) (Henv : env_ok env) (lexsort : list (list Z) -> list Z) (Hlex : lexsort_ok lexsort) (junk : list Z -> num) (MAX : Z) (HMAX : 1 <= MAX).
Notation ops := (axis_ops env).
Notation var := (ViewModel.var axis num).
Notation get := (ViewModel.get ops junk).
Context (A : list axis) (Hsep : separate A) (Hgood : Forall good_axis A) (ti : nat) (t : taxis) (Ht : nth_error A ti = Some (Time t))
        (Honly : forall i s, nth_error A i = Some (Time s) -> i = ti)
        (u : taxis) (Hu : good_axis (Time u)) (Hcl : t_class u = t_class t) (Hsub : mask_sub (t_mask u) (t_mask t) = true)
        (Hin : forall r, In r (records (t_mask u) u) -> In r (records (t_mask u) t)).
Notation A' := (set_at A ti (Time u)).
Context (K : list (list Z)) (HK : Forall2 selection A' K).
Notation Kt := (nth ti K []).
Definition O : list axis := map (fun '(a, l) => axis_take env a l) (combine A' K).

Lemma ti_lt : (ti < length A)%nat.
Proof. apply nth_error_Some. rewrite Ht. discriminate. Qed.
Lemma K_len : length K = length A.
Proof. rewrite <- (Forall2_len _ _ _ HK). apply length_set_at. Qed.
Lemma A'_nth i : nth_error A' i = if Nat.eqb ti i then Some (Time u) else nth_error A i.
Proof. apply nth_error_set_at, ti_lt. Qed.
Lemma A'_good : Forall good_axis A'.
Proof.
  apply Forall_forall. intros a Ha. apply In_nth_error in Ha as (i & Hi). rewrite A'_nth in Hi. destruct (Nat.eqb_spec ti i); [injection Hi as <-; exact Hu|].
  apply nth_error_In in Hi. exact (proj1 (Forall_forall _ _) Hgood a Hi).
Qed.
Lemma A'_time i s : nth_error A' i = Some (Time s) -> i = ti.
Proof. rewrite A'_nth. destruct (Nat.eqb_spec ti i); [auto|apply Honly]. Qed.
Lemma A'_sep : separate A'.
Proof.
  intros i j a b Hi Hj Hij. rewrite A'_nth in Hi, Hj. destruct (Nat.eqb_spec ti i) as [<-|Ni], (Nat.eqb_spec ti j) as [<-|Nj].
  - congruence.
  - injection Hi as <-. destruct b as [| |s]; try exact Logic.I. apply Honly in Hj. congruence.
  - injection Hj as <-. apply (unrelated_time t u); [|exact Hcl|].
    + destruct a as [| |s]; auto. apply Honly in Hi. congruence.
    + apply (Hsep i ti); auto.
  - apply (Hsep i j); auto.
Qed.
Lemma K_nth i l : nth_error K i = Some l -> exists a, nth_error A' i = Some a /\ selection a l /\ good_axis a.
Proof.
  intros Hl. destruct (nth_error A' i) as [a|] eqn:Ea.
  - exists a. split; [reflexivity|]. split; [exact (Forall2_nth_error _ _ _ _ _ _ HK Ea Hl)|]. apply nth_error_In in Ea. exact (proj1 (Forall_forall _ _) A'_good a Ea).
  - exfalso. apply nth_error_None in Ea. rewrite (Forall2_len _ _ _ HK) in Ea. apply nth_error_None in Ea. congruence.
Qed.
Lemma O_nth i a l : nth_error A' i = Some a -> nth_error K i = Some l -> nth_error O i = Some (axis_take env a l).
Proof. intros Ha Hl. unfold O. rewrite nth_error_map, nth_error_combine, Ha, Hl. reflexivity. Qed.
Lemma O_inv i b : nth_error O i = Some b -> exists a l, nth_error A' i = Some a /\ nth_error K i = Some l /\ b = axis_take env a l /\ selection a l /\ good_axis a.
Proof.
  unfold O. rewrite nth_error_map, nth_error_combine. destruct (nth_error A' i) as [a|] eqn:Ea; [|discriminate]. destruct (nth_error K i) as [l|] eqn:El; [|discriminate].
  intros E. injection E as <-. destruct (K_nth i l El) as (a' & Ea' & Hs & Hg). assert (a' = a) as -> by congruence. exists a, l. auto.
Qed.
Lemma O_len : length O = length A.
Proof. unfold O. rewrite map_length, combine_length, K_len, length_set_at. lia. Qed.
Lemma O_lens : map axis_len O = map zlen K.
Proof.
  apply nth_error_ext'. intros i. rewrite !nth_error_map. destruct (nth_error O i) as [b|] eqn:Eb.
  - destruct (O_inv i b Eb) as (a & l & Ha & Hl & -> & Hs & Hg). rewrite Hl. cbn [option_map]. f_equal. apply (sliced_len a l); [exact Hg|].
    apply sliced_self; [exact Henv|exact Hg|exact (proj1 (proj2 Hs))].
  - apply nth_error_None in Eb. rewrite O_len, <- K_len in Eb. apply nth_error_None in Eb. now rewrite Eb.
Qed.
Lemma clip_out : clip env (view_of_inds A' K) = Some (view_of_inds O (upto (map zlen K))).
Proof.
  unfold clip. rewrite subaxes_eq.
  - fold O. rewrite full_view_eq. f_equal. rewrite <- O_lens. unfold upto. now rewrite map_map.
  - eapply Forall2_impl; [|exact HK]. intros a l Hs. exact (proj1 (proj2 Hs)).
Qed.
Lemma Kt_nth : nth_error K ti = Some Kt.
Proof. apply nth_error_nth'. rewrite K_len. apply ti_lt. Qed.
Lemma Kt_sel : selection (Time u) Kt.
Proof. destruct (K_nth ti Kt Kt_nth) as (a & Ea & Hs & _). rewrite A'_nth, Nat.eqb_refl in Ea. injection Ea as <-. exact Hs. Qed.

Lemma the_ct : exists ct, nth_error O ti = Some (Time ct) /\ t_class ct = t_class t /\ t_mask ct = t_mask u /\ zlen (t_dates ct) = zlen Kt /\ NoDup (records (t_mask u) ct) /\
  (forall j, 0 <= j < zlen Kt -> record_of (t_mask u) ct j = record_of (t_mask u) u (znth Kt j)).
Proof.
  pose proof Kt_sel as (Hne & Hr & Hi). pose proof (sliced_self env Henv (Time u) Kt Hu Hr) as Hsl.
  pose proof (take_time env (Time u) Kt) as Htt. pose proof (O_nth ti (Time u) Kt) as HO. rewrite A'_nth, Nat.eqb_refl in HO. specialize (HO eq_refl Kt_nth).
  destruct (axis_take env (Time u) Kt) as [| |ct]; try (destruct Htt; fail). exists ct. split; [exact HO|].
  pose proof (sliced_good _ _ _ Hu Hr (increasing_NoDup _ Hi) Hsl) as Gct. pose proof (sliced_len _ _ _ Hu Hsl) as Lct.
  destruct Hsl as (E1 & E2 & E3 & E4 & E5 & E6 & E7). split; [congruence|]. split; [exact E5|]. split; [exact Lct|].
  split; [destruct Gct as (_ & _ & _ & _ & G & _); rewrite E5 in G; exact G|].
  intros j Hj. unfold record_of, records. rewrite E6, project_pick by exact Hr.
  assert (elem (pick [] (map (project (t_mask u)) (t_dates u)) Kt) j (nth (Z.to_nat (znth Kt j)) (map (project (t_mask u)) (t_dates u)) [])) as K1.
  { apply elem_pick; [cbn [axis_len] in Hr; unfold zlen in *; rewrite map_length; exact Hr|]. exists (znth Kt j). split; [apply elem_znth; exact Hj|].
    assert (0 <= znth Kt j < zlen (t_dates u)) as B by (eapply in_range_elem; [exact Hr|apply elem_znth; exact Hj]).
    split; [lia|]. apply nth_error_nth'. rewrite map_length. unfold zlen in B. lia. }
  destruct K1 as [_ K1]. apply nth_error_nth. exact K1.
Qed.

Definition pairs_ok (m : list (Z * Z)) : Prop := NoDup m /\ m <> [] /\
  forall i j, In (i, j) m <-> 0 <= i < zlen (t_dates t) /\ 0 <= j < zlen Kt /\ record_of (t_mask u) t i = record_of (t_mask u) u (znth Kt j).
Definition sizes (m : list (Z * Z)) : list Z := set_at (map zlen K) ti (zlen m).
Definition read_inds (m : list (Z * Z)) (c : list (list Z)) : list (list Z) := set_at c ti (map (znth (map fst m)) (nth ti c [])).
Notation B := (set_at O ti (Time t)).

Lemma sizes_pos m : m <> [] -> Forall (fun n => 0 < n) (sizes m).
Proof.
  intros Hm. assert (Forall (fun n => 0 < n) (map zlen K)) as H.
  { apply Forall_map, Forall_forall. intros l Hl. apply In_nth_error in Hl as (i & Hi). destruct (K_nth i l Hi) as (a & _ & (Hne & _) & _).
    destruct l; [contradiction|]. unfold zlen. cbn. lia. }
  unfold sizes. apply Forall_forall. intros n Hn. apply In_nth_error in Hn as (i & Hi). rewrite nth_error_set_at in Hi by (rewrite map_length, K_len; apply ti_lt).
  destruct (Nat.eqb ti i).
  - injection Hi as <-. destruct m; [contradiction|]. unfold zlen. cbn. lia.
  - apply nth_error_In in Hi. exact (proj1 (Forall_forall _ _) H n Hi).
Qed.
Lemma ranges_ok : Forall2 (fun a l => in_range (axis_len a) l) O (upto (map zlen K)).
Proof.
  rewrite <- O_lens. unfold upto. rewrite map_map. induction O as [|b l IH]; cbn; constructor; [apply range_arange|exact IH].
Qed.
Lemma pairs_fst m i : pairs_ok m -> In i (map fst m) -> 0 <= i < zlen (t_dates t).
Proof. intros (_ & _ & H) Hi. apply in_map_iff in Hi as ([i' j] & <- & Hi). apply H in Hi. cbn. tauto. Qed.
Lemma pairs_snd m j : pairs_ok m -> In j (map snd m) <-> 0 <= j < zlen Kt.
Proof.
  intros (_ & _ & H). rewrite in_map_iff. split.
  - intros ([i j'] & <- & Hi). apply H in Hi. cbn. tauto.
  - intros Hj. pose proof Kt_sel as (_ & Hr & _).
    assert (0 <= znth Kt j < zlen (t_dates u)) as Bj by (eapply in_range_elem; [exact Hr|apply elem_znth; exact Hj]).
    assert (In (record_of (t_mask u) u (znth Kt j)) (records (t_mask u) t)) as Hrec.
    { apply Hin. apply nth_In. unfold records. rewrite map_length. unfold zlen in Bj. lia. }
    apply at_in in Hrec as (i & Hi). apply record_at in Hi as [Bi Ei]. exists (i, j). split; [reflexivity|]. apply H. auto.
Qed.

Theorem loop_items (x : var) (rest : list var) (R : list (Z * Z) -> list (list Z) -> list (arr num) -> Prop) : var_axes x = A ->
  (forall m, pairs_ok m -> forall c se, LoopProofs.cut (upto (sizes m)) se c -> exists data, sequence (map (fun y => get (view_of_inds B (read_inds m c)) y true true) (x :: rest)) = Some data /\ R m c data) ->
  exists m its, pairs_ok m /\ loopover env lexsort junk MAX (x :: rest) (view_of_inds A' K) = Some its /\
    Forall2 (fun c it => exists data, it = (set_at (map simplify c) ti whole, data, map (znth (map snd m)) (nth ti c [])) /\ R m c data) (loop_mem MAX (upto (sizes m)) []) its.
Proof.
  intros Hx HR. destruct the_ct as (ct & HO & C1 & C2 & C3 & C4 & C5).
  pose proof Hu as (_ & _ & Hf & _ & _ & _).
  destruct (common_map_axes lexsort Hlex t ct) as (m & Em & Hnd & Hm); [exact C1|rewrite C2; exact Hf|rewrite C2; exact Hsub|rewrite C2; exact C4|].
  rewrite C2 in Hm.
  assert (forall i j, In (i, j) m <-> 0 <= i < zlen (t_dates t) /\ 0 <= j < zlen Kt /\ record_of (t_mask u) t i = record_of (t_mask u) u (znth Kt j)) as Hm'.
  { intros i j. rewrite Hm, C3. split; intros (P1 & P2 & P3); (split; [exact P1|]; split; [exact P2|]); rewrite <- (C5 j P2) || rewrite (C5 j P2); exact P3. }
  assert (pairs_ok m) as Hok.
  { split; [exact Hnd|]. split; [|exact Hm']. intros E. pose proof Kt_sel as (Hne & Hr & _). destruct Kt as [|k0 Kt'] eqn:EK; [contradiction|].
    assert (0 <= k0 < zlen (t_dates u)) as B0 by (inversion Hr; assumption).
    assert (In (record_of (t_mask u) u k0) (records (t_mask u) t)) as Hrec.
    { apply Hin. apply nth_In. unfold records. rewrite map_length. unfold zlen in B0. lia. }
    apply at_in in Hrec as (i & Hi). apply record_at in Hi as [Bi Ei].
    assert (In (i, 0) m) as Hc. { apply Hm'. split; [exact Bi|]. split; [unfold zlen; cbn; lia|]. rewrite <- Ei. reflexivity. }
    rewrite E in Hc. destruct Hc. }
  exists m. unfold loopover. rewrite clip_out. cbn [bind vaxes view_of_inds].
  rewrite (time_index_at O ti ct HO).
  2: { intros i s Hi. destruct (O_inv i _ Hi) as (a & l & Ha & _ & E & _). pose proof (take_time env a l) as Htt. rewrite <- E in Htt.
       destruct a as [| |s']; try (destruct Htt; fail). now apply A'_time in Ha. }
  cbn [bind hd_error]. rewrite Hx, (time_index_at A ti t Ht Honly). cbn [bind]. rewrite Em. cbn [bind vinds view_of_inds].
  assert (nth ti (upto (map zlen K)) [] = arange 0 (zlen Kt) 1) as ->.
  { rewrite nth_upto by (rewrite map_length, K_len; apply ti_lt). f_equal. change 0 with (zlen (@nil Z)). apply map_nth. }
  rewrite (unique_run (map snd m) 0 (zlen Kt)) by (intros k; apply pairs_snd, Hok).
  rewrite (unique_increasing (arange 0 (zlen Kt) 1)) by apply increasing_arange. rewrite np_all_eq_refl.
  assert (in_range (axis_len (Time t)) (map fst m)) as Hr1 by (apply Forall_forall; intros i Hi; apply (pairs_fst m); assumption).
  assert (in_range (axis_len (Time ct)) (map snd m)) as Hr2.
  { apply Forall_forall; intros i Hi. apply (pairs_snd m) in Hi; [|exact Hok]. cbn [axis_len]. rewrite C3. exact Hi. }
  assert (ti < length O)%nat as Hto by (rewrite O_len; apply ti_lt).
  fold (view_of_inds O (upto (map zlen K))).
  rewrite (replace_inds env O _ ti (Time t) (map fst m) ranges_ok Hr1 Hto). cbn [bind].
  rewrite (replace_inds env O _ ti (Time ct) (map snd m) ranges_ok Hr2 Hto). cbn [bind vinds vaxes view_of_inds].
  assert (Forall (fun n => 0 <= n) (map zlen K)) as Hnn by (apply Forall_map, Forall_forall; intros l _; unfold zlen; lia).
  rewrite (loop_mem_runs MAX (set_at _ ti (map fst m))), (loop_mem_runs MAX (set_at _ ti (map snd m))). rewrite !runs_set by exact Hnn.
  assert (forall {X Y} (f : X -> Y) l, zlen (map f l) = zlen l) as Lm by (intros X Y f l; unfold zlen; now rewrite map_length).
  rewrite !Lm. fold (sizes m). rewrite ChunkProofs.combine_map, map_map.
  assert (Forall (fun n => 0 < n) (sizes m)) as Hpos by (apply sizes_pos; apply Hok).
  assert (forall c, In c (loop_mem MAX (upto (sizes m)) []) -> exists se, LoopProofs.cut (upto (sizes m)) se c) as Hcuts.
  { intros c Hc. apply subr_split. apply (loop_mem_subr MAX (upto (sizes m)) [] HMAX); [|constructor|constructor|exact Hc].
    apply Forall_map. eapply Forall_impl; [|exact Hpos]. cbn. intros n Hn E. assert (In 0 (arange 0 n 1)) as Q by (apply In_arange1; lia). rewrite E in Q. destruct Q. }
  match goal with |- context [sequence (map ?f (loop_mem MAX (upto (sizes m)) []))] => set (F := f) end.
  destruct (Forall2_build (fun c it => F c = Some it /\ exists data, it = (set_at (map simplify c) ti whole, data, map (znth (map snd m)) (nth ti c [])) /\ R m c data)
     (loop_mem MAX (upto (sizes m)) [])) as (its & Hits).
  - intros c Hc. destruct (Hcuts c Hc) as (se & Hse). destruct (HR m Hok c se Hse) as (data & Hd & HRd).
    exists (set_at (map simplify c) ti whole, data, map (znth (map snd m)) (nth ti c [])). split; [|eauto].
    assert (Forall (fun n => 0 <= n) (sizes m)) as Hpos' by (eapply Forall_impl; [|exact Hpos]; cbn; lia).
    destruct (cut_upto _ _ _ Hpos' Hse) as [-> Hse'].
    assert (ti < length (map zlen K))%nat as Htk by (rewrite map_length, K_len; apply ti_lt).
    unfold F. cbv beta. rewrite !(zmap_piece _ (map zlen K) ti se (zlen m) Hse' Htk).
    fold (read_inds m (aranges se)).
    match goal with |- bind (sequence ?l) _ = _ => replace (sequence l) with (Some data) by (symmetry; exact Hd) end.
    cbn [bind vslices view_of_inds]. rewrite map_set_at, set_at_set. f_equal. f_equal. rewrite nth_set_at, Nat.eqb_refl; [reflexivity|].
    unfold aranges. rewrite map_length, (Forall2_len _ _ _ Hse'). unfold sizes. rewrite length_set_at. exact Htk.
  - exists its. split; [exact Hok|]. split.
    + apply Forall2_of_map. eapply Forall2_impl; [|exact Hits]. cbn. tauto.
    + eapply Forall2_impl; [|exact Hits]. cbn. tauto.
Qed.

(** the element of the data that stands at position [q] of the loop *)
Definition origin (m : list (Z * Z)) (q : list Z) : list Z := set_at (gather K q) ti (znth (map fst m) (nth ti q 0)).

Lemma pairs_fst_NoDup m : pairs_ok m -> NoDup (map fst m).
Proof.
  intros (Hnd & _ & H). apply NoDup_map_in; [|exact Hnd]. intros [i j] [i' j'] Hi Hj E. cbn in E. subst i'. f_equal.
  apply H in Hi as (_ & Bj & Ej). apply H in Hj as (_ & Bj' & Ej'). pose proof Kt_sel as (_ & Hr & Hinc).
  pose proof Hu as (_ & _ & _ & _ & Hd & _). rewrite Ej in Ej'.
  assert (forall k, 0 <= k < zlen Kt -> 0 <= znth Kt k < zlen (t_dates u)) as Bk.
  { intros k Hk. eapply in_range_elem; [exact Hr|apply elem_znth; exact Hk]. }
  assert (znth Kt j = znth Kt j') as E.
  { eapply NoDup_at; [exact Hd|apply record_at; split; [apply Bk, Bj|reflexivity]|apply record_at; split; [apply Bk, Bj'|exact Ej']]. }
  destruct (Z.lt_trichotomy j j') as [L|[L|L]]; [|exact L|]; exfalso.
  - pose proof (Hinc j j' _ _ (elem_znth _ _ Bj) (elem_znth _ _ Bj') L). lia.
  - pose proof (Hinc j' j _ _ (elem_znth _ _ Bj') (elem_znth _ _ Bj) L). lia.
Qed.
Lemma NoDup_various l : l <> [] -> NoDup l -> various l.
Proof.
  intros Hne H. destruct l as [|a [|b l]]; [contradiction|left; reflexivity|]. right. exists a, b. split; [now left|]. split; [right; now left|].
  inversion H as [|? ? Ha _]. intros ->. apply Ha. now left.
Qed.
Lemma map_znth_NoDup l s e : NoDup l -> 0 <= s -> e <= zlen l -> NoDup (map (znth l) (arange s e 1)).
Proof.
  intros H Hs He. apply NoDup_map_in; [|apply increasing_NoDup, SmoothView.increasing_arange1]. intros i j Hi Hj E. apply In_arange1 in Hi, Hj.
  pose proof (elem_znth l i ltac:(lia)) as E1. pose proof (elem_znth l j ltac:(lia)) as E2. rewrite <- E in E2. exact (NoDup_at _ _ _ _ H E1 E2).
Qed.
Lemma zlen_map {X Y} (f : X -> Y) l : zlen (map f l) = zlen l.
Proof. unfold zlen. now rewrite map_length. Qed.

Section Read.
Context (m : list (Z * Z)) (Hm : pairs_ok m) (c : list (list Z)) (se : list (Z * Z)) (Hc : LoopProofs.cut (upto (sizes m)) se c).
Lemma c_ranges : c = aranges se /\ Forall2 (fun '(s, e) n => 0 <= s < e /\ e <= n) se (sizes m).
Proof. apply cut_upto; [|exact Hc]. eapply Forall_impl; [|apply sizes_pos, Hm]. cbn; lia. Qed.
Lemma c_len : length c = length A.
Proof. destruct c_ranges as [-> H]. unfold aranges. rewrite map_length, (Forall2_len _ _ _ H). unfold sizes. rewrite length_set_at, map_length. apply K_len. Qed.
Lemma c_nth i : (i < length A)%nat -> exists s e, nth_error c i = Some (arange s e 1) /\ 0 <= s < e /\ e <= nth i (sizes m) 0.
Proof.
  intros Hi. destruct c_ranges as [E H]. assert (i < length (sizes m))%nat as Hl by (unfold sizes; rewrite length_set_at, map_length, K_len; exact Hi).
  destruct (nth_error se i) as [[s e]|] eqn:Es; [|apply nth_error_None in Es; rewrite (Forall2_len _ _ _ H) in Es; lia].
  exists s, e. split; [rewrite E; unfold aranges; rewrite nth_error_map, Es; reflexivity|].
  exact (Forall2_nth_error _ _ _ _ _ _ H Es (nth_error_nth' _ 0 Hl)).
Qed.
Lemma size_at i : (i < length A)%nat -> nth i (sizes m) 0 = if Nat.eqb ti i then zlen m else zlen (nth i K []).
Proof.
  intros Hi. unfold sizes. rewrite nth_set_at by (rewrite map_length, K_len; apply ti_lt). destruct (Nat.eqb ti i); [reflexivity|].
  change 0 with (zlen (@nil Z)). apply map_nth.
Qed.
Lemma read_len : length (read_inds m c) = length A.
Proof. unfold read_inds. rewrite length_set_at. apply c_len. Qed.
Lemma read_shape : map zlen (read_inds m c) = map zlen c.
Proof.
  unfold read_inds. rewrite map_set_at, zlen_map. apply set_at_nth. rewrite nth_error_map, (nth_error_nth' c []) by (rewrite c_len; apply ti_lt). reflexivity.
Qed.
Lemma read_nth i : (i < length A)%nat -> nth_error (read_inds m c) i = Some (if Nat.eqb ti i then map (znth (map fst m)) (nth ti c []) else nth i c []).
Proof.
  intros Hi. unfold read_inds. rewrite nth_error_set_at by (rewrite c_len; apply ti_lt). destruct (Nat.eqb ti i); [reflexivity|].
  apply nth_error_nth'. rewrite c_len. exact Hi.
Qed.
Lemma B_nth i : nth_error B i = if Nat.eqb ti i then Some (Time t) else nth_error O i.
Proof. apply nth_error_set_at. rewrite O_len. apply ti_lt. Qed.
Lemma read_ok : Forall2 (fun b l => l <> [] /\ in_range (axis_len b) l) B (read_inds m c).
Proof.
  apply Forall2_intro_nth; [rewrite length_set_at, O_len, read_len; reflexivity|]. intros i b l Hb Hl.
  assert (i < length A)%nat as Hi by (rewrite <- read_len; apply nth_error_Some; congruence).
  rewrite read_nth in Hl by exact Hi. rewrite B_nth in Hb. destruct (c_nth i Hi) as (s & e & Ec & Hse & He). rewrite size_at in He by exact Hi.
  assert (nth i c [] = arange s e 1) as En by (apply nth_error_nth; exact Ec).
  assert (forall y, arange s e 1 = y -> y <> []) as Hne.
  { intros y <- E. assert (In s (arange s e 1)) as Q by (apply In_arange1; lia). rewrite E in Q. destruct Q. }
  destruct (Nat.eqb_spec ti i) as [<-|Ni].
  - injection Hb as <-. injection Hl as <-. rewrite En. split.
    + intros E. apply map_eq_nil in E. exact (Hne _ eq_refl E).
    + apply Forall_forall. intros y Hy. apply in_map_iff in Hy as (k & <- & Hk). apply In_arange1 in Hk. cbn [axis_len]. apply (pairs_fst m); [exact Hm|].
      rewrite <- zlen_map with (f := fst) in He. destruct (elem_znth (map fst m) k ltac:(lia)) as [_ Q]. apply nth_error_In in Q. exact Q.
  - injection Hl as <-. rewrite En. split; [now apply Hne|]. apply Forall_forall. intros y Hy. apply In_arange1 in Hy.
    assert (nth_error (map axis_len O) i = Some (axis_len b)) as Q by (rewrite nth_error_map, Hb; reflexivity).
    rewrite O_lens, nth_error_map in Q. destruct (nth_error K i) as [l|] eqn:El; [|discriminate]. cbn in Q. rewrite (nth_error_nth _ _ [] El) in He. injection Q as Q. lia.
Qed.

Lemma time_derived : derived B (Time t) (ti, arange 0 (zlen (t_dates t)) 1).
Proof.
  split; [apply range_arange|]. exists (Time t). cbn [fst snd]. rewrite B_nth, Nat.eqb_refl. split; [reflexivity|]. split; [right; split; reflexivity|].
  intros i b Hi Hb. rewrite B_nth in Hb. destruct (Nat.eqb_spec ti i); [congruence|]. destruct (O_inv i b Hb) as (a & l & Ha & _ & -> & _).
  apply take_unrelated. rewrite A'_nth in Ha. destruct (Nat.eqb_spec ti i); [congruence|]. apply (Hsep ti i); auto.
Qed.
Lemma time_various : various (map (znth (arange 0 (zlen (t_dates t)) 1)) (nth ti (read_inds m c) [])).
Proof.
  pose proof ti_lt as Hi. rewrite (nth_error_nth _ _ [] (read_nth ti Hi)), Nat.eqb_refl. destruct (c_nth ti Hi) as (s & e & Ec & Hse & He). rewrite size_at, Nat.eqb_refl in He by exact Hi.
  rewrite (nth_error_nth _ _ [] Ec).
  rewrite arange_znth.
  - apply NoDup_various.
    + intros E. apply map_eq_nil in E. assert (In s (arange s e 1)) as Q by (apply In_arange1; lia). rewrite E in Q. destruct Q.
    + apply map_znth_NoDup; [apply pairs_fst_NoDup, Hm|lia|rewrite zlen_map; exact He].
  - apply Forall_forall. intros y Hy. apply in_map_iff in Hy as (k & <- & Hk). apply In_arange1 in Hk. apply (pairs_fst m); [exact Hm|].
    destruct (elem_znth (map fst m) k) as [_ Q]; [rewrite zlen_map; lia|]. apply nth_error_In in Q. exact Q.
Qed.
Lemma time_value p : length p = length A -> 0 <= nth ti p 0 < zlen (nth ti c []) ->
  znth (arange 0 (zlen (t_dates t)) 1) (nth ti (gather (read_inds m c) p) 0) = znth (map fst m) (nth ti (gather c p) 0).
Proof.
  intros Lp Bp. pose proof ti_lt as Hi.
  rewrite (nth_gather junk (read_inds m c)) by (rewrite ?read_len; lia). rewrite (nth_error_nth _ _ [] (read_nth ti Hi)), Nat.eqb_refl. rewrite (nth_gather junk c) by (rewrite ?c_len; lia).
  destruct (c_nth ti Hi) as (s & e & Ec & Hse & He). rewrite size_at, Nat.eqb_refl in He by exact Hi. rewrite (nth_error_nth _ _ [] Ec) in Bp |- *.
  assert (elem (map (znth (map fst m)) (arange s e 1)) (nth ti p 0) (znth (map fst m) (znth (arange s e 1) (nth ti p 0)))) as Em.
  { apply elem_map. eexists. split; [apply elem_znth; exact Bp|reflexivity]. }
  rewrite (znth_elem _ _ _ Em).
  apply znth_elem. apply elem_arange01. split; [reflexivity|]. rewrite zlen_arange1 in Bp by lia. apply (pairs_fst m); [exact Hm|].
  destruct (elem_znth (map fst m) (znth (arange s e 1) (nth ti p 0))) as [_ Q]; [rewrite zlen_map, znth_arange1 by lia; lia|]. apply nth_error_In in Q. exact Q.
Qed.

Theorem read_data (x : var) D : responds env x D -> var_axes x = A ->
  exists r, get (view_of_inds B (read_inds m c)) x true true = Some r /\ array_is r (map zlen c) (fun p => D (origin m (gather c p))).
Proof.
  intros Hx EA. set (js := combine (seq 0 (length A)) (set_at K ti (arange 0 (zlen (t_dates t)) 1))).
  assert (forall i, nth_error js i = if Nat.ltb i (length A) then Some (i, if Nat.eqb ti i then arange 0 (zlen (t_dates t)) 1 else nth i K []) else None) as Hjs.
  { intros i. unfold js. rewrite nth_error_combine, nth_error_seq. destruct (Nat.ltb_spec i (length A)) as [Hl|Hl]; [|reflexivity].
    rewrite nth_error_set_at by (rewrite K_len; apply ti_lt). destruct (Nat.eqb ti i); [reflexivity|]. rewrite (nth_error_nth' K []) by (rewrite K_len; exact Hl). reflexivity. }
  assert (map fst js = seq 0 (length A)) as Efst.
  { unfold js. apply map_fst_combine. rewrite seq_length, length_set_at. symmetry. apply K_len. }
  destruct (get_derived_any env Henv junk B (read_inds m c) x D js Hx read_ok) as (r & Hr & Ha).
  - rewrite EA. apply Forall2_intro_nth; [unfold js; rewrite combine_length, seq_length, length_set_at, K_len; lia|]. intros i a ii Hai Hii.
    rewrite Hjs in Hii. destruct (Nat.ltb_spec i (length A)) as [Hl|Hl]; [|discriminate]. injection Hii as <-.
    destruct (Nat.eqb_spec ti i) as [<-|Ni]; [rewrite Ht in Hai; injection Hai as <-; apply time_derived|].
    destruct (K_nth i (nth i K [])) as (a' & Ha' & Hs & Hg); [apply nth_error_nth'; rewrite K_len; exact Hl|].
    rewrite A'_nth in Ha'. destruct (Nat.eqb_spec ti i); [congruence|]. assert (a' = a) as -> by congruence.
    split; [exact (proj1 (proj2 Hs))|]. exists (axis_take env a (nth i K [])). cbn [fst snd]. rewrite B_nth. destruct (Nat.eqb_spec ti i); [congruence|].
    split; [apply O_nth; [rewrite A'_nth; destruct (Nat.eqb_spec ti i); [congruence|exact Hai]|apply nth_error_nth'; rewrite K_len; exact Hl]|].
    split; [left; split; [exact Hg|apply sliced_self; [exact Henv|exact Hg|exact (proj1 (proj2 Hs))]]|].
    intros i' b Hi' Hb. rewrite B_nth in Hb. destruct (Nat.eqb_spec ti i') as [<-|Ni'].
    + injection Hb as <-. apply (Hsep i ti); auto.
    + destruct (O_inv i' b Hb) as (a2 & l2 & Ha2 & _ & -> & _). apply take_unrelated. rewrite A'_nth in Ha2. destruct (Nat.eqb_spec ti i'); [congruence|]. apply (Hsep i i'); auto.
  - rewrite Efst. apply seq_NoDup.
  - apply Forall_forall. intros ii Hii. apply In_nth_error in Hii as (i & Hii). rewrite Hjs in Hii. destruct (Nat.ltb_spec i (length A)) as [Hl|Hl]; [|discriminate]. injection Hii as <-.
    destruct (Nat.eqb_spec ti i) as [<-|Ni]; [apply time_various|].
    rewrite (nth_error_nth _ _ [] (read_nth i Hl)). destruct (Nat.eqb_spec ti i); [congruence|]. destruct (c_nth i Hl) as (s & e & Ec & Hse & He).
    rewrite size_at in He by exact Hl. destruct (Nat.eqb_spec ti i); [congruence|]. rewrite (nth_error_nth _ _ [] Ec).
    destruct (K_nth i (nth i K [])) as (a' & _ & Hs & _); [apply nth_error_nth'; rewrite K_len; exact Hl|].
    rewrite <- subrange_map by lia. apply increasing_various.
    + apply (subr_ne (nth i K [])). exists s, e. split; [lia|]. split; [lia|reflexivity].
    + apply (increasing_subr (nth i K [])); [exact (proj2 (proj2 Hs))|]. exists s, e. split; [lia|]. split; [lia|reflexivity].
  - exists r. split; [exact Hr|]. rewrite Efst, outshape_full, read_shape in Ha.
    2: { intros i Hi. rewrite read_shape, map_length, c_len in Hi. apply in_seq. lia. }
    destruct Ha as [Hs Hv]. split; [exact Hs|]. intros p Hp. rewrite (Hv p Hp). unfold derived_data. f_equal.
    pose proof (Forall2_len _ _ _ Hp) as Lp. rewrite map_length, c_len in Lp.
    assert (length (gather c p) = length A) as Lg by (rewrite length_gather by (rewrite c_len; lia); apply c_len).
    apply nth_error_ext'. intros i. rewrite nth_error_map, Hjs. unfold origin.
    destruct (Nat.ltb_spec i (length A)) as [Hl|Hl].
    + cbn [option_map]. rewrite nth_error_set_at by (rewrite length_gather by (rewrite K_len; congruence); rewrite K_len; apply ti_lt).
      destruct (Nat.eqb_spec ti i) as [<-|Ni]; [f_equal; apply time_value; [lia|]; apply (Forall2_nth_error _ _ _ ti _ _ Hp); [rewrite nth_error_map, (nth_error_nth' c []) by (rewrite c_len; lia); reflexivity|apply nth_error_nth'; lia]|].
      rewrite (nth_error_nth' (gather K (gather c p)) 0) by (rewrite length_gather by (rewrite K_len; congruence); rewrite K_len; exact Hl).
      f_equal. rewrite (nth_gather junk (read_inds m c)), (nth_gather junk K), (nth_gather junk c) by (rewrite ?read_len, ?K_len, ?c_len; lia). f_equal.
      rewrite (nth_error_nth _ _ [] (read_nth i Hl)). destruct (Nat.eqb_spec ti i); [congruence|reflexivity].
    + symmetry. apply nth_error_None. rewrite length_set_at, length_gather by (rewrite K_len; congruence). rewrite K_len. exact Hl.
Qed.
Theorem read_time (x : var) S : responds env x S -> var_axes x = [Time t] ->
  exists r, get (view_of_inds B (read_inds m c)) x true true = Some r /\
    array_is r (outshape (map zlen c) [ti]) (fun p => S [znth (map fst m) (nth ti (gather c p) 0)]).
Proof.
  intros Hx EA. destruct (get_derived_any env Henv junk B (read_inds m c) x S [(ti, arange 0 (zlen (t_dates t)) 1)] Hx read_ok) as (r & Hr & Ha).
  - rewrite EA. constructor; [apply time_derived|constructor].
  - cbn. constructor; [intros []|constructor].
  - constructor; [apply time_various|constructor].
  - exists r. split; [exact Hr|]. cbn [map fst] in Ha. rewrite read_shape in Ha. destruct Ha as [Hs Hv]. split; [exact Hs|]. intros p Hp. rewrite (Hv p Hp).
    unfold derived_data. cbn [map]. f_equal. f_equal. pose proof (Forall2_len _ _ _ Hp) as Lp. unfold outshape in Lp. rewrite map_length, combine_length, seq_length, map_length, c_len in Lp. pose proof ti_lt as Hi.
    apply time_value; [lia|]. apply (Forall2_nth_error _ _ _ ti _ _ Hp); [|apply nth_error_nth'; lia].
    unfold outshape. rewrite nth_error_map, nth_error_combine, nth_error_seq, map_length, c_len. destruct (Nat.ltb_spec ti (length A)); [|lia].
    rewrite nth_error_map, (nth_error_nth' c []) by (rewrite c_len; lia). cbn. rewrite Nat.eqb_refl. reflexivity.
Qed.
End Read.
End View.
