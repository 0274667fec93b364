(** Proofs about CompositeVar. *)
From Coq Require Import ZArith List Bool Lia QArith_base.
From Verif Require Import CalModel CalSpec TimeSearchModel SortSpec IndexModel IndexSpec IndexProofs ArrModel ArrProofs ViewModel ViewSpec ViewProofs ChunkProofs
     AxisModel AxisSpec AxisProofs VarOpsModel VarOpsSpec VarOpsProofs ReduceModel ReduceSpec LoopProofs RespondProofs ArgProofs UfuncView NumModel
     StencilModel StencilSpec StencilProofs DiffProofs IntgrProofs ConcatModel ConcatProofs ConcatVar WindowModel WindowSpec WindowProofs LagProofs.
Import ListNotations.
Open Scope Z_scope.

Lemma set_at_insert {A} (l : list A) i x y : (i <= length l)%nat -> set_at (insert_at l i x) i y = insert_at l i y.
Proof. revert i; induction l as [|z l IH]; intros [|i] H; cbn in *; try lia; try reflexivity. now rewrite IH by lia. Qed.
Lemma insert_remove_set {A} (l : list A) i x : (i < length l)%nat -> insert_at (remove_at l i) i x = set_at l i x.
Proof. revert i; induction l as [|z l IH]; intros [|i] H; cbn in *; try lia; try reflexivity. now rewrite IH by lia. Qed.
Lemma map_fst_combine {A B} (l : list A) (m : list B) : length l = length m -> map fst (combine l m) = l.
Proof. revert m; induction l; intros [|? ?] E; cbn in *; try lia; [reflexivity|f_equal; auto]. Qed.
Lemma length_arange0 {B} (l : list B) : length (arange 0 (zlen l) 1) = length l.
Proof. apply Nat2Z.inj. change (zlen (arange 0 (zlen l) 1) = zlen l). rewrite zlen_arange1 by (unfold zlen; lia). lia. Qed.

Lemma increasing_filter_map (l ks : list Z) (c : Z) : increasing l -> (forall i j x y, elem ks i x -> elem ks j y -> i < j -> x < y) ->
  in_range (zlen l) ks -> increasing (map (fun j => znth l j + c) ks).
Proof.
  intros Hl Hk Hr i j x y Hi Hj Hij. apply elem_map in Hi as (x' & Hx & ->). apply elem_map in Hj as (y' & Hy & ->).
  assert (x' < y') as H by (eapply Hk; eassumption).
  pose proof (proj1 (Forall_forall _ _) Hr x' (elem_In _ _ _ Hx)) as Rx. pose proof (proj1 (Forall_forall _ _) Hr y' (elem_In _ _ _ Hy)) as Ry. cbv beta in *.
  pose proof (Hl x' y' _ _ (elem_znth l x' Rx) (elem_znth l y' Ry) H). lia.
Qed.
Lemma places_increasing f l : increasing (places f l).
Proof.
  unfold places. apply sorted_increasing. assert (sorted (arange 0 (zlen l) 1)) as H.
  { apply increasing_sorted. intros i j x y Hi Hj Hij. apply elem_arange1 in Hi, Hj. lia. }
  induction H as [|x m Hx Hm IH]; cbn [filter]; [constructor|]. destruct (f (znth l x)); [|exact IH].
  constructor; [|exact IH]. intros y Hy. apply filter_In in Hy as [Hy _]. auto.
Qed.

(** what event number [nth d q 0] has at the offset [nth (S d) q 0 - mevoff] *)
Definition event_value (D : list Z -> num) (d : nat) (mevoff : Z) (q : list Z) (e : Z * Z * Z) (other : num) : num :=
  let '(ev, el, eo) := e in
  let o := nth (S d) q 0 - mevoff in
  if (- eo <=? o) && (o <? el - eo) then D (set_at (remove_at q (S d)) d (ev + o)) else other.

Section Composite.
Context (env : axenv) (Henv : env_ok env) (junk : list Z -> num).
Notation var := (ViewModel.var axis num).

Section View.
Context (x : var) (D : list Z -> num) (d : nat) (a eva off : axis) (L : list (list Z)) (evs os : list Z) (mevoff : Z).
Notation axes := (insert_at (set_at (var_axes x) d eva) (S d) off).
Context (Hx : responds env x D) (Ha : nth_error (var_axes x) d = Some a) (HL : Forall2 selection axes L).
Context (Hevs : nth_error L d = Some evs) (Hos : nth_error L (S d) = Some os).
Notation N := (axis_len a).
Notation s := (map zlen L).
Notation full := (arange 0 N 1).
Notation Lx := (remove_at L (S d)).
Notation icmsl := (map (fun k => k - mevoff) os).

Lemma c_len : (S d < length L)%nat.
Proof. apply nth_error_Some. congruence. Qed.
Lemma c_lenx : (d < length (var_axes x))%nat.
Proof. apply nth_error_Some. congruence. Qed.
Lemma c_axes : (length L = S (length (var_axes x)))%nat.
Proof. apply Forall2_len in HL. rewrite length_insert, length_set_at in HL. lia. Qed.
Lemma c_full : Forall2 (fun a l => in_range (axis_len a) l) (var_axes x) (set_at Lx d full).
Proof.
  assert (Forall2 selection (set_at (var_axes x) d eva) Lx) as H.
  { rewrite <- (remove_insert (set_at (var_axes x) d eva) (S d) off) by (rewrite length_set_at; pose proof c_lenx; lia). now apply Forall2_remove. }
  assert (Forall2 (fun a l => in_range (axis_len a) l) (set_at (var_axes x) d eva) Lx) as H' by (eapply Forall2_impl; [|exact H]; intros b l (_ & K & _); exact K).
  apply (Forall2_set_both _ _ _ d a full) in H'; [|apply in_range_arange; lia].
  rewrite set_at_set, set_at_nth in H' by exact Ha. exact H'.
Qed.
Lemma c_inc l : increasing l -> in_range N l -> Forall2 (fun a l => in_range (axis_len a) l /\ increasing l) (var_axes x) (set_at Lx d l).
Proof.
  intros Hl1 Hl2.
  assert (Forall2 selection (set_at (var_axes x) d eva) Lx) as H.
  { rewrite <- (remove_insert (set_at (var_axes x) d eva) (S d) off) by (rewrite length_set_at; pose proof c_lenx; lia). now apply Forall2_remove. }
  assert (Forall2 (fun a l => in_range (axis_len a) l /\ increasing l) (set_at (var_axes x) d eva) Lx) as H' by (eapply Forall2_impl; [|exact H]; intros b m (_ & K1 & K2); split; assumption).
  apply (Forall2_set_both (fun a l => in_range (axis_len a) l /\ increasing l) (set_at (var_axes x) d eva) Lx d a l) in H'; [|split; assumption].
  rewrite set_at_set, set_at_nth in H' by exact Ha. exact H'.
Qed.

Lemma event_step_spec out i ev el eo : shape out = s -> 0 <= i < zlen evs ->
  (forall o, In o icmsl -> - eo <= o < el - eo -> 0 <= ev + o < N) ->
  exists out', event_step env junk x (view_of_inds (var_axes x) (set_at Lx d full)) d icmsl (Some out) (i, (ev, el, eo)) = Some out' /\ shape out' = s /\
    forall p, position s p -> val out' p = if nth d p 0 =? i then event_value D d mevoff (gather L p) (ev, el, eo) (val out p) else val out p.
Proof.
  intros Hout Hi Hin. unfold event_step. cbn [bind].
  set (f := fun k => (- eo <=? k) && (k <? el - eo)). set (mask := places f icmsl). set (icsl := map (fun j => znth icmsl j + ev) mask).
  assert (nth_error s d = Some (zlen evs)) as Hs1 by (now rewrite nth_error_map, Hevs).
  assert (nth_error s (S d) = Some (zlen os)) as Hs2 by (now rewrite nth_error_map, Hos).
  assert (forall j, In j mask -> 0 <= j < zlen os /\ f (znth icmsl j) = true) as Hmask.
  { intros j Hj. apply places_In in Hj. rewrite zlen_map in Hj. exact Hj. }
  assert (in_range N icsl) as Hr.
  { apply Forall_forall. intros z Hz. apply in_map_iff in Hz as (j & <- & Hj). destruct (Hmask j Hj) as [H1 H2]. unfold f in H2.
    assert (In (znth icmsl j) icmsl) as K by (eapply elem_In, elem_znth; now rewrite zlen_map). specialize (Hin _ K). lia. }
  assert (selection off os) as (Ho1 & Ho2 & Ho3).
  { refine (Forall2_nth_error _ _ _ _ _ _ HL _ Hos). rewrite nth_error_insert_at by (rewrite length_set_at; pose proof c_lenx; lia). rewrite Nat.ltb_irrefl, Nat.eqb_refl. reflexivity. }
  assert (increasing icmsl) as Hinc.
  { intros i0 j0 x0 y0 Hx0 Hy0 Hlt. apply elem_map in Hx0 as (x1 & Hx1 & ->). apply elem_map in Hy0 as (y1 & Hy1 & ->). pose proof (Ho3 _ _ _ _ Hx1 Hy1 Hlt). lia. }
  assert (increasing icsl) as Hic.
  { apply increasing_filter_map; [exact Hinc|apply places_increasing|]. apply Forall_forall. intros j Hj. rewrite zlen_map. now apply Hmask. }
  rewrite (modify_any env junk (var_axes x) (set_at Lx d full) d (SList icsl) icsl a c_full Ha eq_refl Hr), set_at_set. cbn [bind].
  destruct (own_get env Henv junk x D (set_at Lx d icsl) Hx (c_inc icsl Hic Hr)) as (b & -> & Hb). cbn [bind].
  destruct (put_snd out b d mask i s (zlen evs) (zlen os) (fun p => D (set_at (gather Lx p) d (znth icsl (nth d p 0))))) as (o & E & So & V); auto.
  { apply places_NoDup. }
  { apply Forall_forall. intros j Hj. now apply Hmask. }
  { rewrite remove_at_map. rewrite map_set_at in Hb. unfold icsl in Hb at 1. rewrite zlen_map in Hb. eapply array_is_ext; [exact Hb|].
    intros p Hp. cbv beta. now rewrite gather_set. }
  exists o. split; [exact E|]. split; [exact So|]. intros p Hp. destruct (V p Hp) as [V1 V2].
  destruct (Z.eqb_spec (nth d p 0) i) as [Ei|Ei]; [|apply V1; now left].
  assert (length p = length L) as Hlp by (apply Forall2_len in Hp; rewrite <- Hp; apply map_length).
  assert (0 <= nth (S d) p 0 < zlen os) as Hpo by (eapply position_at; [exact Hp|exact Hs2]).
  unfold event_value. rewrite (nth_gather' L p (S d) os Hlp Hos). cbv zeta.
  assert (znth icmsl (nth (S d) p 0) = znth os (nth (S d) p 0) - mevoff) as Hz by (now rewrite znth_map).
  change ((- eo <=? znth os (nth (S d) p 0) - mevoff) && (znth os (nth (S d) p 0) - mevoff <? el - eo)) with (f (znth os (nth (S d) p 0) - mevoff)).
  destruct (f (znth os (nth (S d) p 0) - mevoff)) eqn:Ef.
  - assert (In (nth (S d) p 0) mask) as HIn by (apply places_In; rewrite zlen_map, Hz; split; assumption). apply In_elem in HIn as [j Hj].
    rewrite (V2 j Ei Hj). pose proof (elem_range _ _ _ Hj) as Hjr. apply znth_elem in Hj as Hj'.
    assert (d < length (remove_at p (S d)))%nat as Hdr by (rewrite length_remove_at; pose proof c_len; lia).
    rewrite nth_set_same by exact Hdr. unfold icsl. rewrite znth_map by exact Hjr. rewrite Hj', Hz. f_equal.
    rewrite gather_set_p, set_at_set, gather_remove by exact Hlp. f_equal. lia.
  - apply V1. right. intros H. apply places_In in H as [_ H]. rewrite Hz, Ef in H. discriminate.
Qed.

Lemma composite_view_spec events : axis_len eva = Z.of_nat (length events) ->
  (forall e ev el eo o, nth_error events e = Some (ev, el, eo) -> - mevoff <= o < axis_len off - mevoff -> - eo <= o < el - eo -> 0 <= ev + o < N) ->
  exists r, composite_view env junk x d a events mevoff (view_of_inds axes L) = Some r /\
    array_is r s (fun p => event_value D d mevoff (gather L p) (nth (Z.to_nat (nth d (gather L p) 0)) events (0, 0, 0)) NaN).
Proof.
  intros Hlen Hev. unfold composite_view. cbn [vinds view_of_inds]. rewrite (nth_error_nth _ _ [] Hevs), (nth_error_nth _ _ [] Hos).
  fold (view_of_inds axes L). rewrite remove_axis_inds, remove_insert by (rewrite length_set_at; pose proof c_lenx; lia).
  rewrite remove_axis_inds.
  assert (selection eva evs) as (He1 & He2 & He3).
  { refine (Forall2_nth_error _ _ _ _ _ _ HL _ Hevs). rewrite nth_error_insert_at by (rewrite length_set_at; pose proof c_lenx; lia).
    destruct (Nat.ltb_spec d (S d)); [|lia]. rewrite nth_error_set_at, Nat.eqb_refl by exact c_lenx. reflexivity. }
  assert (selection off os) as (Ho1 & Ho2 & Ho3).
  { refine (Forall2_nth_error _ _ _ _ _ _ HL _ Hos). rewrite nth_error_insert_at by (rewrite length_set_at; pose proof c_lenx; lia). rewrite Nat.ltb_irrefl, Nat.eqb_refl. reflexivity. }
  assert (Forall2 (fun a l => in_range (axis_len a) l) (remove_at (set_at (var_axes x) d eva) d) (remove_at Lx d)) as Hrem.
  { apply Forall2_remove. rewrite <- (remove_insert (set_at (var_axes x) d eva) (S d) off) by (rewrite length_set_at; pose proof c_lenx; lia).
    apply Forall2_remove. eapply Forall2_impl; [|exact HL]. intros b l (_ & H & _). exact H. }
  rewrite (add_axis_inds env junk _ _ d a full whole Hrem); [| |apply in_range_arange; lia].
  2:{ unfold whole. cbn [expand]. cbn. reflexivity. }
  cbn [bind].
  assert (d < length Lx)%nat as HdLx by (rewrite length_remove_at; pose proof c_len; lia).
  rewrite !insert_remove_set by (rewrite ?length_set_at; auto using c_lenx). rewrite set_at_set, (set_at_nth _ _ _ Ha).
  set (trips := map (fun i => nth (Z.to_nat i) events (0, 0, 0)) evs).
  assert (zlen trips = zlen evs) as Hzt by (unfold zlen, trips; now rewrite map_length).
  destruct (fold_columns (event_step env junk x (view_of_inds (var_axes x) (set_at Lx d full)) d icmsl) d s (fun e p w => event_value D d mevoff (gather L p) e w)
              (combine (arange 0 (zlen trips) 1) trips) (Arr (vshape (view_of_inds axes L)) (fun _ => NaN))) as (out & E & So & Vo).
  - reflexivity.
  - rewrite map_fst_combine by apply length_arange0. apply NoDup_arange1.
  - intros out [i e] Hin Hs. apply In_nth_error in Hin as [k Hk]. rewrite nth_error_combine in Hk.
    destruct (nth_error (arange 0 (zlen trips) 1) k) as [i'|] eqn:Ei; [|discriminate].
    destruct (nth_error trips k) as [e'|] eqn:Ee; [|discriminate]. injection Hk as <- <-.
    assert (elem (arange 0 (zlen trips) 1) (Z.of_nat k) i') as Hel by (split; [lia|]; now rewrite Nat2Z.id). apply elem_arange1 in Hel as [Hel1 Hel2].
    unfold trips in Ee. rewrite nth_error_map in Ee. destruct (nth_error evs k) as [m|] eqn:Em; [|discriminate]. injection Ee as Ee.
    pose proof (proj1 (Forall_forall _ _) He2 m (nth_error_In _ _ Em)) as Hm. cbv beta in Hm.
    destruct e' as [[ev el] eo]. apply event_step_spec; [exact Hs|cbn [fst]; lia|].
    intros o Ho Hw. apply (Hev (Z.to_nat m) ev el eo o); [| |exact Hw].
    + rewrite <- Ee. apply nth_error_nth'. lia.
    + apply in_map_iff in Ho as (k0 & <- & Hk0). pose proof (proj1 (Forall_forall _ _) Ho2 k0 Hk0) as H. cbv beta in H. lia.
  - exists out. split; [exact E|]. split; [exact So|]. intros p Hp. destruct (Vo p Hp) as [V1 _].
    assert (length p = length L) as Hlp by (apply Forall2_len in Hp; rewrite <- Hp; apply map_length).
    assert (0 <= nth d p 0 < zlen evs) as Hpl by (eapply position_at; [exact Hp|]; rewrite nth_error_map, Hevs; reflexivity).
    rewrite (nth_gather' L p d evs Hlp Hevs).
    apply (V1 (nth d p 0, nth (Z.to_nat (znth evs (nth d p 0))) events (0, 0, 0))); [|reflexivity].
    apply nth_error_In with (n := Z.to_nat (nth d p 0)). rewrite nth_error_combine.
    assert (elem (arange 0 (zlen trips) 1) (nth d p 0) (nth d p 0)) as [_ K1] by (apply elem_arange1; lia).
    assert (elem evs (nth d p 0) (znth evs (nth d p 0))) as [_ K2] by (apply elem_znth; exact Hpl).
    rewrite K1. unfold trips. rewrite nth_error_map, K2. reflexivity.
Qed.
End View.

Context (event_class offset_class yearless_class : list Z) (event_name offset_name indices_name : Z).
Notation composite := (composite_var env junk event_class offset_class yearless_class event_name offset_name indices_name).

Lemma clip_value D d mevoff N q e ev el eo last : e = (ev, el, eo) -> readable N last ev el eo -> nth (S d) q 0 - mevoff < last ->
  let o := nth (S d) q 0 - mevoff in
  event_value D d mevoff q (clip_event N e) NaN =
    if (- eo <=? o) && (o <? el - eo) && (0 <=? ev + o) && (ev + o <? N) then D (set_at (remove_at q (S d)) d (ev + o)) else NaN.
Proof.
  intros -> [Hev Hr] Hlast. cbv zeta. unfold event_value, clip_event.
  set (o := nth (S d) q 0 - mevoff) in *.
  destruct (Z.ltb_spec (ev - eo) 0) as [H1|H1]; cbn [fst snd]; destruct (Z.leb_spec N (ev - eo + el)) as [H2|H2];
    repeat match goal with |- context [?a <=? ?b] => destruct (Z.leb_spec a b) | |- context [?a <? ?b] => destruct (Z.ltb_spec a b) end; cbn [andb]; try reflexivity; lia.
Qed.
Lemma clip_reads N ev el eo last o : readable N last ev el eo -> o < last ->
  let '(ev', el', eo') := clip_event N (ev, el, eo) in - eo' <= o < el' - eo' -> 0 <= ev' + o < N.
Proof.
  intros [Hev Hr] Ho. unfold clip_event.
  destruct (Z.ltb_spec (ev - eo) 0); destruct (Z.leb_spec N (ev - eo + el)); lia.
Qed.

Theorem composite_spec (x : var) D d a ievents evlen evoff lens offs mevlen mevoff :
  responds env x D -> nth_error (var_axes x) d = Some a ->
  event_windows (length ievents) evlen evoff = Some (lens, offs, mevlen, mevoff) -> 0 <= mevlen ->
  length lens = length ievents -> length offs = length ievents ->
  Forall (fun e => let '(ev, el, eo) := e in readable (axis_len a) (mevlen - mevoff) ev el eo) (combine (combine ievents lens) offs) ->
  (forall b c, In b (remove_at (var_axes x) d) ->
     (exists k, c = Coord k /\ c_kind k = Plain /\ (c_class k = event_class \/ c_class k = offset_class)) \/ (exists t, c = Time t /\ t_class t = yearless_class) ->
     unrelated b c /\ unrelated c b) ->
  comparable event_class offset_class = false -> comparable offset_class event_class = false -> comparable event_class yearless_class = false ->
  exists y eva off, composite x d ievents evlen evoff = Some y /\ var_axes y = insert_at (set_at (var_axes x) d eva) (S d) off /\
    (exists k, eva = Coord k /\ c_kind k = Plain /\ c_class k = event_class /\ c_vals k = of_Zs (map (fun i => i + 1) (arange 0 (zlen ievents) 1)) /\ c_aux k = [(indices_name, of_Zs ievents)]) /\
    match a with
    | Time t => exists s, off = Time s /\ t_class s = yearless_class /\ t_cal s = Yearless /\ t_units s = t_units t /\ t_mask s = offset_mask /\
                  Forall2 (fun o w => nearly (t_units t) (delta (t_vals t) * inject_Z o) w) (arange (- mevoff) (mevlen - mevoff) 1) (t_vals s)
    | _ => exists k, off = Coord k /\ c_kind k = Plain /\ c_class k = offset_class /\ c_vals k = of_Zs (arange (- mevoff) (mevlen - mevoff) 1)
    end /\
    axis_len eva = zlen ievents /\ axis_len off = mevlen /\
    responds env y (fun q => event_value D d mevoff q (clip_event (axis_len a) (nth (Z.to_nat (nth d q 0)) (combine (combine ievents lens) offs) (0, 0, 0))) NaN).
Proof.
  intros Hx Ha Hw Hm Hll Hlo Hread Hun C1 C2 C3. unfold composite_var. rewrite Ha. cbn [bind]. rewrite Hw. cbn [bind].
  set (offsets := of_Zs (arange (- mevoff) (mevlen - mevoff) 1)).
  assert (zlen offsets = mevlen) as Hzo. { unfold offsets, of_Zs. unfold zlen at 1. rewrite map_length. change (zlen (arange (- mevoff) (mevlen - mevoff) 1) = mevlen). rewrite zlen_arange1; lia. }
  set (events := combine (combine ievents lens) offs).
  assert (length events = length ievents) as Hle. { unfold events. rewrite !combine_length. lia. }
  set (ek := MkCoord Plain event_class event_name _ _ _ _).
  match goal with |- context [bind ?O _] => set (oo := O) end.
  assert (exists off, oo = Some off /\
    match a with
    | Time t => exists s, off = Time s /\ t_class s = yearless_class /\ t_cal s = Yearless /\ t_units s = t_units t /\ t_mask s = offset_mask /\
                  Forall2 (fun o w => nearly (t_units t) (delta (t_vals t) * inject_Z o) w) (arange (- mevoff) (mevlen - mevoff) 1) (t_vals s)
    | _ => exists k, off = Coord k /\ c_kind k = Plain /\ c_class k = offset_class /\ c_vals k = of_Zs (arange (- mevoff) (mevlen - mevoff) 1)
    end /\ axis_len off = mevlen /\
    ((exists k, off = Coord k /\ c_kind k = Plain /\ c_class k = offset_class) \/ (exists t, off = Time t /\ t_class t = yearless_class))) as (off & Eoff & Hoff & Hlen & Hkind).
  { unfold oo. destruct a as [c|n|t].
    - eexists. split; [reflexivity|]. split; [eexists; split; [reflexivity|]; repeat split|]. split; [exact Hzo|]. left. eexists. split; [reflexivity|]. split; reflexivity.
    - eexists. split; [reflexivity|]. split; [eexists; split; [reflexivity|]; repeat split|]. split; [exact Hzo|]. left. eexists. split; [reflexivity|]. split; reflexivity.
    - destruct (offset_axis_spec yearless_class (t_units t) (map (fun o => delta (t_vals t) * o)%Q offsets)) as (s & Es & H1 & H2 & H3 & H4 & H5 & H6 & H7).
      exists (Time s). split; [exact Es|]. split; [exists s|split].
      + repeat (split; [first [reflexivity|assumption]|]). unfold offsets, of_Zs in H7. rewrite map_map in H7. exact (proj1 (Forall2_map_l _ _ _ _) H7).
      + rewrite map_length in H6. change (zlen (t_dates s) = mevlen). unfold zlen. rewrite H6. exact Hzo.
      + right. exists s. auto. }
  rewrite Eoff. cbn [bind]. eexists _, (Coord ek), off. split; [reflexivity|]. split; [reflexivity|].
  assert (axis_len (Coord ek) = zlen ievents) as Hel.
  { unfold axis_len, ek, of_Zs. cbn [c_vals]. unfold zlen. rewrite !map_length. change (zlen (arange 0 (zlen ievents) 1) = zlen ievents). rewrite zlen_arange1; unfold zlen; lia. }
  split; [exists ek; repeat split|]. split; [exact Hoff|]. split; [exact Hel|]. split; [exact Hlen|].
  assert (d < length (var_axes x))%nat as Hd by (apply nth_error_Some; congruence).
  split; cbn [var_axes var_source].
  - apply separate_insert; [|rewrite length_set_at; lia|].
    + destruct Hx as [Hsep _]. intros i j b c Hb Hc Hij. rewrite nth_error_set_at in Hb, Hc by exact Hd.
      assert (forall k e, k <> d -> nth_error (var_axes x) k = Some e -> In e (remove_at (var_axes x) d)) as Hother.
      { intros k e Hk He. destruct (Nat.ltb_spec k d) as [Hlt|Hge].
        - apply nth_error_In with (n := k). rewrite nth_error_remove. destruct (Nat.ltb_spec k d); [exact He|lia].
        - apply nth_error_In with (n := (k - 1)%nat). rewrite nth_error_remove. destruct (Nat.ltb_spec (k - 1) d); [lia|]. replace (S (k - 1)) with k by lia. exact He. }
      destruct (Nat.eqb_spec d i) as [Ei|Ei], (Nat.eqb_spec d j) as [Ej|Ej]; try lia.
      * injection Hb as <-. apply (Hun c (Coord ek)); [apply (Hother j); [lia|exact Hc]|]. left. exists ek. repeat split. now left.
      * injection Hc as <-. apply (Hun b (Coord ek)); [apply (Hother i); [lia|exact Hb]|]. left. exists ek. repeat split. now left.
      * exact (Hsep i j b c Hb Hc Hij).
    + intros b Hb. apply In_nth_error in Hb as [k Hb]. rewrite nth_error_set_at in Hb by exact Hd. destruct (Nat.eqb_spec d k) as [Ek|Ek].
      * injection Hb as <-. destruct Hkind as [(k0 & -> & K1 & K2)|(t & -> & K1)].
        -- cbn [unrelated]. rewrite K1, K2. unfold ek. cbn [c_kind c_class]. split; assumption.
        -- cbn [unrelated]. unfold ek. cbn [c_kind c_class axis_class]. rewrite K1. split; [trivial|assumption].
      * assert (In b (remove_at (var_axes x) d)) as Hin.
        { destruct (Nat.ltb_spec k d) as [Hlt|Hge].
          - apply nth_error_In with (n := k). rewrite nth_error_remove. destruct (Nat.ltb_spec k d); [exact Hb|lia].
          - apply nth_error_In with (n := (k - 1)%nat). rewrite nth_error_remove. destruct (Nat.ltb_spec (k - 1) d); [lia|]. replace (S (k - 1)) with k by lia. exact Hb. }
        destruct (Hun b off Hin) as [U1 U2]; [|split; assumption]. destruct Hkind as [(k0 & -> & K1 & K2)|(t & -> & K1)]; [left; exists k0; auto|right; exists t; auto].
  - intros L HL.
    assert (length L = S (length (var_axes x))) as HlL by (apply Forall2_len in HL; rewrite length_insert, length_set_at in HL; lia).
    destruct (nth_error L d) as [evs|] eqn:E1; [|apply nth_error_None in E1; lia].
    destruct (nth_error L (S d)) as [os|] eqn:E2; [|apply nth_error_None in E2; lia].
    destruct (composite_view_spec x D d a (Coord ek) off L evs os mevoff Hx Ha HL E1 E2 (map (clip_event (axis_len a)) events)) as (r & Hr & Hr').
    + rewrite map_length, Hle. exact Hel.
    + intros e ev el eo o He Ho. rewrite nth_error_map in He. destruct (nth_error events e) as [[[ev0 el0] eo0]|] eqn:Ee; [|discriminate]. cbn [option_map] in He.
      assert (clip_event (axis_len a) (ev0, el0, eo0) = (ev, el, eo)) as He' by congruence. clear He.
      pose proof (proj1 (Forall_forall _ _) Hread _ (nth_error_In _ _ Ee)) as Hrd. cbv beta iota in Hrd.
      pose proof (clip_reads (axis_len a) ev0 el0 eo0 (mevlen - mevoff) o Hrd) as K. rewrite He' in K. apply K. lia.
    + exists r. split; [exact Hr|]. eapply array_is_ext; [exact Hr'|]. intros p Hp. cbv beta. f_equal.
      assert (0 <= nth d (gather L p) 0 < zlen ievents) as Hn.
      { assert (length p = length L) as Hlp by (apply Forall2_len in Hp; rewrite <- Hp; apply map_length). rewrite (nth_gather' L p d evs Hlp E1).
        assert (selection (Coord ek) evs) as (_ & Hr0 & _).
        { refine (Forall2_nth_error _ _ _ _ _ _ HL _ E1). rewrite nth_error_insert_at by (rewrite length_set_at; lia).
          destruct (Nat.ltb_spec d (S d)); [|lia]. rewrite nth_error_set_at, Nat.eqb_refl by exact Hd. reflexivity. }
        rewrite Hel in Hr0. apply (proj1 (Forall_forall _ _) Hr0). eapply elem_In, elem_znth. eapply position_at; [exact Hp|]. rewrite nth_error_map, E1. reflexivity. }
      rewrite <- (map_nth (clip_event (axis_len a)) events (0, 0, 0)). apply nth_indep. rewrite map_length, Hle. unfold zlen in Hn. lia.
Qed.
End Composite.

(** the time step *)
Lemma qdiff_consecutive vals d : In d (qdiff vals) <-> consecutive vals d.
Proof.
  induction vals as [|x [|y vals] IH]; cbn [qdiff In].
  - split; [intros []|]. intros (i & a & b & H & _). destruct i; discriminate.
  - split; [intros []|]. intros (i & a & b & _ & H & _). destruct i; discriminate.
  - split.
    + intros [<-|H]; [exists 0%nat, x, y; auto|]. apply IH in H as (i & a & b & H1 & H2 & H3). exists (S i), a, b. auto.
    + intros ([|i] & a & b & H1 & H2 & H3); [left; cbn in H1, H2; congruence|]. right. apply IH. exists i, a, b. auto.
Qed.
Lemma fold_qmin l : forall a, (In (fold_left qmin l a) (a :: l)) /\ forall d, In d (a :: l) -> (fold_left qmin l a <= d)%Q.
Proof.
  induction l as [|b l IH]; intros a; cbn [fold_left].
  - split; [now left|]. intros d [<-|[]]. apply Qle_refl.
  - destruct (IH (qmin a b)) as [H1 H2]. assert (qmin a b = a /\ (a <= b)%Q \/ qmin a b = b /\ (b <= a)%Q) as Hq.
    { unfold qmin. destruct (Qle_bool a b) eqn:E; [left; split; [reflexivity|now apply Qle_bool_iff]|right; split; [reflexivity|]].
      apply Qnot_lt_le. intros K. apply Qlt_le_weak in K. apply Qle_bool_iff in K. congruence. }
    split.
    + destruct H1 as [H1|H1]; [|right; now right]. rewrite <- H1. destruct Hq as [[-> _]|[-> _]]; [now left|right; now left].
    + pose proof (H2 (qmin a b) (or_introl eq_refl)) as Hm.
      assert (qmin a b <= a /\ qmin a b <= b)%Q as [Ka Kb] by (destruct Hq as [[-> K]|[-> K]]; split; auto using Qle_refl).
      intros d [<-|[<-|Hd]].
      * eapply Qle_trans; [exact Hm|exact Ka].
      * eapply Qle_trans; [exact Hm|exact Kb].
      * apply H2. now right.
Qed.
Lemma delta_step vals : time_step vals (delta vals).
Proof.
  unfold delta. destruct (qdiff vals) as [|d0 ds] eqn:E.
  - left. split; [|reflexivity]. destruct vals as [|x [|y vals]]; cbn in *; [lia|lia|discriminate].
  - right. setoid_rewrite <- qdiff_consecutive. rewrite E. destruct (forallb (fun d => close d d0) (d0 :: ds)) eqn:F.
    + split; [now left|]. intros d Hd. right. apply forallb_forall with (x := d) in F; [|exact Hd]. now apply Qle_bool_iff in F.
    + destruct (fold_qmin ds d0) as [H1 H2]. split; [exact H1|]. intros d Hd. left. now apply H2.
Qed.
