(** Lemmas for the climatologies: two views cut alike, and sums over the pieces. *)
From Coq Require Import ZArith List Bool Lia ZifyBool Permutation.
From Verif Require Import IndexModel IndexSpec IndexProofs ArrModel ArrProofs ViewModel ViewSpec ViewProofs VarOpsModel VarOpsSpec VarOpsProofs NumModel NumProofs ReduceModel ReduceSpec StencilProofs IntgrProofs
  AxisModel AxisSpec AxisProofs ChunkProofs LoopProofs BlockProofs InterpView StencilModel SmoothView ClimModel ClimSum.
Import ListNotations.
Open Scope Z_scope.
Notation zlen := IndexSpec.zlen.
Notation znth := ArrModel.znth.

(** *** loop_mem depends on the lengths only *)
Definition zmap (fs : list (Z -> Z)) (L : list (list Z)) : list (list Z) := map (fun '(f, l) => map f l) (combine fs L).
Definition zmap2 (fs : list (Z -> Z)) (L : list (list (list Z))) : list (list (list Z)) := map (fun '(f, l) => map (map f) l) (combine fs L).
Definition idZ : Z -> Z := fun x => x.
Lemma subrange_of_map (f : Z -> Z) l s e : subrange (map f l) s e = map f (subrange l s e).
Proof. unfold subrange. now rewrite skipn_map, firstn_map. Qed.
Lemma split_map f l n : split_axis (map f l) n = map (map f) (split_axis l n).
Proof. unfold split_axis. rewrite map_length, map_map. apply map_ext. intros j. apply subrange_of_map. Qed.
Lemma nth_zmap fs L i : length fs = length L -> nth i (zmap fs L) [] = map (nth i fs idZ) (nth i L []).
Proof.
  revert L i. induction fs as [|f fs IH]; intros [|l L] i H; try discriminate; [destruct i; reflexivity|].
  destruct i as [|i]; [reflexivity|]. cbn. apply IH. cbn in H; lia.
Qed.
Lemma set_zmap2 fs L i x : length fs = length L -> set_at (zmap2 fs L) i (map (map (nth i fs idZ)) x) = zmap2 fs (set_at L i x).
Proof.
  revert L i. induction fs as [|f fs IH]; intros [|l L] i H; try discriminate; [destruct i; reflexivity|].
  destruct i as [|i]; [reflexivity|]. cbn. f_equal. apply IH. cbn in H; lia.
Qed.
Lemma others_zmap fs L ot : length fs = length L -> forall m R, length R = length L ->
  others_loop (zmap fs L) ot m (zmap2 fs R) = zmap2 fs (others_loop L ot m R).
Proof.
  intros H. induction ot as [|i ot IH]; intros m R HR; [reflexivity|]. cbn [others_loop]. cbv zeta.
  rewrite nth_zmap, split_map, map_length, set_zmap2 by congruence. apply IH. rewrite length_set_at. exact HR.
Qed.
Lemma product_zmap fs : forall L, length fs = length L -> product (zmap2 fs L) = map (zmap fs) (product L).
Proof.
  induction fs as [|f fs IH]; intros [|l L] H; try discriminate; [reflexivity|]. cbn [zmap2 combine map product].
  fold (zmap2 fs L). rewrite IH by (cbn in H; lia). rewrite map_flat_map, flat_map_map. apply flat_map_ext. intros a. rewrite !map_map. reflexivity.
Qed.
Lemma length_zmap fs L : length fs = length L -> length (zmap fs L) = length L.
Proof. intros H. unfold zmap. rewrite map_length, combine_length. lia. Qed.
Theorem loop_mem_zmap MAX fs L : length fs = length L -> loop_mem MAX (zmap fs L) [] = map (zmap fs) (loop_mem MAX L []).
Proof.
  intros H. unfold loop_mem. cbn [preserve_loop]. rewrite length_zmap by assumption.
  assert (map (fun _ => []) (zmap fs L) = zmap2 fs (map (fun _ => []) L)) as ->.
  { clear MAX. revert L H. induction fs as [|f fs IH]; intros [|l L] H; try discriminate; [reflexivity|]. cbn. f_equal. apply IH. cbn in H; lia. }
  rewrite others_zmap by (rewrite ?map_length; auto). apply product_zmap.
  assert (forall ot m R, length (others_loop L ot m R) = length R) as K.
  { induction ot as [|i ot IH]; intros m R; [reflexivity|]. cbn [others_loop]. cbv zeta. now rewrite IH, length_set_at. }
  now rewrite K, map_length.
Qed.
Definition runs (J : list (list Z)) : list (list Z) := map (fun l => arange 0 (zlen l) 1) J.
Lemma zmap_runs J : zmap (map znth J) (runs J) = J.
Proof. unfold runs. induction J as [|l J IH]; [reflexivity|]. cbn. rewrite znth_arange. f_equal. exact IH. Qed.
Theorem loop_mem_runs MAX J : loop_mem MAX J [] = map (zmap (map znth J)) (loop_mem MAX (runs J) []).
Proof. rewrite <- loop_mem_zmap, zmap_runs; [reflexivity|]. unfold runs. now rewrite !map_length. Qed.

(** *** a[sls] = f(a[sls], b) *)
Lemma update_at {W X} (f : W -> X -> W) (a : arr W) (b b' : arr X) se sls :
  np_indices a sls = Some (map (fun '(s, e) => arange s e 1) se) -> Forall (fun '(s, e) => 0 <= s < e) se -> length se = length (shape a) ->
  broadcast b (map (fun '(s, e) => e - s) se) = Some b' ->
  exists r, update f a sls b = Some r /\ shape r = shape a /\
    forall p, position (shape a) p ->
      (hits se p -> val r p = f (val a p) (val b' (shifted_back se p))) /\ (~ hits se p -> val r p = val a p).
Proof.
  intros Hni Hse Hl Hb. unfold update, getitem. rewrite Hni.
  assert (map zlen (map (fun '(s, e) => arange s e 1) se) = map (fun '(s, e) => e - s) se) as Hsh.
  { rewrite map_map. apply map_ext_in. intros [s e] Hin. apply (proj1 (Forall_forall _ _) Hse) in Hin. rewrite zlen_arange1; lia. }
  unfold zip_to. cbn [shape outer_index]. rewrite Hsh, Hb.
  set (c := Arr (map (fun '(s, e) => e - s) se) _).
  destruct (broadcast_same c (map (fun '(s, e) => e - s) se) eq_refl) as (c' & Hc & Hcs & Hcv).
  destruct (setitem_spec a c c' se sls Hni Hse Hl Hc) as (r & Hr & Hrs & Hrv). exists r. split; [exact Hr|]. split; [exact Hrs|].
  intros p Hp. destruct (Hrv p Hp) as [H1 H2]. split; [|exact H2]. intros Hh. rewrite (H1 Hh).
  assert (position (map (fun '(s, e) => e - s) se) (shifted_back se p)) as Hsp.
  { clear -Hh. induction Hh as [|[s e] x se p Hx Hh IH]; cbn; constructor; [lia|exact IH]. }
  rewrite Hcv by exact Hsp. cbn [val c]. f_equal. cbn [outer_index val]. f_equal.
  clear -Hh. induction Hh as [|[s e] x se p Hx Hh IH]; [reflexivity|]. cbn [map shifted_back combine gather] in *.
  unfold shifted_back in IH. rewrite IH. rewrite znth_arange1 by lia. f_equal. lia.
Qed.

(** *** which positions of a piece count for an output element *)
Lemma NoDup_app2 {A} (l l' : list A) : NoDup l -> NoDup l' -> (forall x, In x l -> ~ In x l') -> NoDup (l ++ l').
Proof.
  induction 1 as [|x l Hx Hl IH]; intros H' H; [exact H'|]. cbn [app]. constructor.
  - intros K. apply in_app_or in K as [K|K]; [contradiction|]. exact (H x (or_introl eq_refl) K).
  - apply IH; [exact H'|]. intros y Hy. apply H. now right.
Qed.
Lemma NoDup_product (ls : list (list Z)) : Forall (@NoDup Z) ls -> NoDup (product ls).
Proof.
  induction 1 as [|l ls Hl Hls IH]; [constructor; [intros []|constructor]|]. cbn [product].
  induction Hl as [|x l Hx Hl IH2]; [constructor|]. cbn [flat_map]. apply NoDup_app2.
  - apply FinFun.Injective_map_NoDup; [|exact IH]. intros a b E. now injection E.
  - exact IH2.
  - intros q Hq Hq'. apply in_map_iff in Hq as (r & <- & _). apply in_flat_map in Hq' as (y & Hy & Hq'). apply in_map_iff in Hq' as (r' & E & _).
    injection E as -> _. contradiction.
Qed.

Lemma set_at_out {A} (l : list A) d x : (length l <= d)%nat -> set_at l d x = l.
Proof. revert d; induction l as [|a l IH]; intros [|d] H; cbn in *; try lia; auto. rewrite IH; [reflexivity|lia]. Qed.

Section Pieces.
Context (ti : nat) (outmap : list Z).
Definition lands (p q : list Z) : bool := zlist_eqb (set_at q ti (znth outmap (nth ti q 0))) p.
Lemma nth_in_product (c : list (list Z)) (q : list Z) i : In q (product c) -> (i < length c)%nat -> In (nth i q 0) (nth i c []).
Proof. intros H Hi. apply in_product in H. apply Forall2_nth_in; assumption. Qed.
Lemma product_len (c : list (list Z)) (q : list Z) : In q (product c) -> length q = length c.
Proof. intros H. apply in_product in H. symmetry. eapply Forall2_len, H. Qed.
Lemma in_product_nth (c : list (list Z)) (q : list Z) : length q = length c -> (forall i, (i < length c)%nat -> In (nth i q 0) (nth i c [])) -> In q (product c).
Proof.
  intros Hl H. apply in_product. revert q Hl H. induction c as [|l c IH]; intros [|x q] Hl H; try discriminate; constructor.
  - apply (H 0%nat). cbn; lia.
  - apply IH; [cbn in Hl; lia|]. intros i Hi. apply (H (S i)). cbn; lia.
Qed.
Lemma list_nth_ext (p q : list Z) : length p = length q -> (forall i, (i < length p)%nat -> nth i p 0 = nth i q 0) -> p = q.
Proof. intros H E. apply (nth_ext p q 0 0 H E). Qed.

Lemma piece_hit (c : list (list Z)) (p : list Z) : Forall (@NoDup Z) c -> (ti < length c)%nat -> length p = length c ->
  (forall i, i <> ti -> (i < length c)%nat -> In (nth i p 0) (nth i c [])) ->
  Permutation (filter (lands p) (product c)) (map (set_at p ti) (filter (fun k => znth outmap k =? nth ti p 0) (nth ti c []))).
Proof.
  intros Hd Ht Hl Hin. apply NoDup_Permutation.
  - apply NoDup_filter, NoDup_product, Hd.
  - apply FinFun.Injective_map_NoDup.
    + intros k k' E. apply (f_equal (fun l => nth ti l 0)) in E. rewrite !nth_set_at, Nat.eqb_refl in E by lia. exact E.
    + apply NoDup_filter. apply (proj1 (Forall_forall _ _) Hd). apply nth_In, Ht.
  - intros q. rewrite filter_In, in_map_iff. split.
    + intros [Hq Hm]. unfold lands in Hm. apply zlist_eqb_eq in Hm. pose proof (product_len _ _ Hq) as Lq.
      exists (nth ti q 0). split.
      * rewrite <- Hm. rewrite set_at_set. apply set_at_nth, nth_error_nth'. lia.
      * apply filter_In. split; [now apply nth_in_product|]. rewrite <- Hm, nth_set_at, Nat.eqb_refl by lia. apply Z.eqb_refl.
    + intros (k & <- & Hk). apply filter_In in Hk as [Hk Hm]. apply Z.eqb_eq in Hm. split.
      * apply in_product_nth; [rewrite length_set_at; exact Hl|]. intros i Hi. rewrite nth_set_at by lia. destruct (Nat.eqb_spec ti i) as [<-|Hne]; [exact Hk|].
        apply Hin; [congruence|exact Hi].
      * unfold lands. apply zlist_eqb_eq. rewrite set_at_set, nth_set_at, Nat.eqb_refl, Hm by lia. apply set_at_nth, nth_error_nth'. lia.
Qed.
Lemma piece_miss (c : list (list Z)) (p : list Z) i : i <> ti -> (i < length c)%nat -> ~ In (nth i p 0) (nth i c []) -> filter (lands p) (product c) = [].
Proof.
  intros Hne Hi Hn. assert (forall q, In q (product c) -> lands p q = false) as K.
  { intros q Hq. unfold lands. destruct (zlist_eqb _ p) eqn:E; [|reflexivity]. apply zlist_eqb_eq in E. exfalso. apply Hn. rewrite <- E.
    pose proof (nth_in_product _ _ i Hq Hi). pose proof (product_len _ _ Hq) as Lq.
    destruct (lt_dec ti (length q)) as [L|L].
    - rewrite nth_set_at by exact L. destruct (Nat.eqb_spec ti i); [congruence|assumption].
    - rewrite set_at_out by lia. assumption. }
  induction (product c) as [|q l IH]; [reflexivity|]. cbn [filter]. rewrite K by now left. apply IH. intros; apply K; now right.
Qed.
End Pieces.

(** *** the pieces added up *)
Definition aranges (se : list (Z * Z)) : list (list Z) := map (fun '(s, e) => arange s e 1) se.
Definition upto (ns : list Z) : list (list Z) := map (fun n => arange 0 n 1) ns.
Lemma nth_upto ns i : (i < length ns)%nat -> nth i (upto ns) [] = arange 0 (nth i ns 0) 1.
Proof. revert i. induction ns as [|n ns IH]; intros [|i] H; cbn in H; try lia; [reflexivity|]. cbn. apply IH. lia. Qed.
Lemma cut_upto ns : forall se c, Forall (fun n => 0 <= n) ns -> LoopProofs.cut (upto ns) se c -> c = aranges se /\ Forall2 (fun '(s, e) n => 0 <= s < e /\ e <= n) se ns.
Proof.
  induction ns as [|n ns IH]; intros se c Hn H.
  - apply (cut_inv _ _ _ _ H); [intros _ -> ->; split; [reflexivity|constructor]|discriminate].
  - apply (cut_inv _ _ _ _ H); [discriminate|]. intros l J' s e se' ci c' E -> -> A B -> Hc. cbn in E. injection E as <- <-. inversion Hn; subst.
    rewrite zlen_arange in B by assumption. destruct (IH se' c') as [-> K]; [assumption|exact Hc|]. split; [|constructor; [lia|exact K]].
    cbn [aranges map]. f_equal. rewrite subrange_map by (rewrite ?zlen_arange by assumption; lia).
    apply arange_znth. apply Forall_forall. intros x Hx. apply In_arange1 in Hx. lia.
Qed.
Lemma gather_shift0 se : forall p, hits se p -> gather (aranges se) (shifted_back se p) = p.
Proof.
  unfold hits. induction 1 as [|[s e] x se p Hx H IH]; [reflexivity|]. cbn [aranges map shifted_back combine gather] in *.
  unfold shifted_back in IH. unfold aranges in IH. rewrite IH, znth_arange1 by lia. f_equal. lia.
Qed.
Lemma gather_shift nout k : forall se ti p, hits (set_at se ti (0, nout)) p -> (ti < length se)%nat ->
  set_at (gather (aranges se) (shifted_back (set_at se ti (0, nout)) p)) ti k = set_at p ti k.
Proof.
  induction se as [|[s e] se IH]; intros ti p H Ht; [cbn in Ht; lia|]. destruct ti as [|ti]; cbn [set_at] in *; inversion H as [|? x ? p' Hx H']; subst.
  - pose proof (gather_shift0 se p' H') as K. unfold aranges, shifted_back in *. cbn [map combine gather set_at]. rewrite K. reflexivity.
  - specialize (IH ti p' H'). unfold aranges, shifted_back in *. cbn [map combine gather set_at]. rewrite IH by (cbn in Ht; lia).
    rewrite znth_arange1 by lia. f_equal. lia.
Qed.
Lemma nth_shift nout : forall se ti p, hits (set_at se ti (0, nout)) p -> (ti < length se)%nat -> nth ti (shifted_back (set_at se ti (0, nout)) p) 0 = nth ti p 0.
Proof.
  induction se as [|[s e] se IH]; intros ti p H Ht; [cbn in Ht; lia|]. destruct ti as [|ti]; cbn [set_at] in *; inversion H as [|? x ? p' Hx H']; subst.
  - cbn. lia.
  - cbn [shifted_back combine map nth]. apply IH; [exact H'|cbn in Ht; lia].
Qed.
Lemma hits_in nout : forall se ti p, hits (set_at se ti (0, nout)) p -> forall i, i <> ti -> (i < length se)%nat -> In (nth i p 0) (nth i (aranges se) []).
Proof.
  induction se as [|[s e] se IH]; intros ti p H i Hi Hl; [cbn in Hl; lia|].
  destruct ti as [|ti], i as [|i]; cbn [set_at] in *; inversion H as [|? x ? p' Hx H']; subst; cbn [aranges map nth]; try (exfalso; lia); try (apply In_arange1; exact Hx).
  - destruct se as [|[s' e'] se]; [cbn in Hl; lia|]. cbn in Hl. assert (forall se p, hits se p -> forall i, (i < length se)%nat -> In (nth i p 0) (nth i (aranges se) [])) as K.
    { clear. unfold hits. induction 1 as [|[s e] x se p Hx H IH]; intros i Hl; [cbn in Hl; lia|]. destruct i; cbn [aranges map nth]; [apply In_arange1; exact Hx|]. apply IH. cbn in Hl; lia. }
    apply (K _ _ H'). cbn. lia.
  - apply (IH ti p' H'); [congruence|cbn in Hl; lia].
Qed.
Lemma miss_in nout ns : forall se ti p, Forall2 (fun '(s, e) n => 0 <= s < e /\ e <= n) se ns -> position (set_at ns ti nout) p -> ~ hits (set_at se ti (0, nout)) p ->
  exists i, i <> ti /\ (i < length se)%nat /\ ~ In (nth i p 0) (nth i (aranges se) []).
Proof.
  assert (forall se p, length se = length p -> ~ hits se p -> exists i, (i < length se)%nat /\ ~ In (nth i p 0) (nth i (aranges se) [])) as K.
  { induction se as [|[s e] se IH]; intros [|x p] Hl Hn; try discriminate; [exfalso; apply Hn; constructor|].
    destruct (Z_le_gt_dec s x) as [A|A]; [destruct (Z_lt_ge_dec x e) as [B|B]|].
    - destruct (IH p) as (i & Hi & Hx); [cbn in Hl; lia|intros H; apply Hn; constructor; [lia|exact H]|]. exists (S i). cbn. split; [lia|exact Hx].
    - exists 0%nat. cbn. split; [lia|]. intros H. apply In_arange1 in H. lia.
    - exists 0%nat. cbn. split; [lia|]. intros H. apply In_arange1 in H. lia. }
  induction ns as [|n ns IH]; intros se ti p Hse Hp Hn; inversion Hse as [|[s e] ? se' ? Hx Hse']; subst.
  - destruct ti; cbn [set_at] in *; inversion Hp; subst; exfalso; apply Hn; constructor.
  - destruct ti as [|ti]; cbn [set_at] in *; inversion Hp as [|? x ? p' Hx' Hp']; subst.
    + destruct (K se' p') as (i & Hi & Hm); [apply Forall2_len in Hse', Hp'; lia|intros H; apply Hn; constructor; [lia|exact H]|].
      exists (S i). split; [lia|]. cbn. split; [lia|exact Hm].
    + destruct (Z_le_gt_dec s x) as [A|A]; [destruct (Z_lt_ge_dec x e) as [B|B]|].
      * destruct (IH se' ti p' Hse' Hp') as (i & Hne & Hi & Hm); [intros H; apply Hn; constructor; [lia|exact H]|].
        exists (S i). split; [congruence|]. cbn. split; [lia|exact Hm].
      * exists 0%nat. split; [lia|]. cbn. split; [lia|]. intros H. apply In_arange1 in H. lia.
      * exists 0%nat. split; [lia|]. cbn. split; [lia|]. intros H. apply In_arange1 in H. lia.
Qed.
Lemma whole_indices {W} (a : arr W) ns se ti nout : Forall2 (fun '(s, e) n => 0 <= s < e /\ e <= n) se ns -> 0 < nout -> shape a = set_at ns ti nout -> (ti < length ns)%nat ->
  np_indices a (set_at (map simplify (aranges se)) ti whole) = Some (aranges (set_at se ti (0, nout))).
Proof.
  intros Hse Hno Hs Hti. unfold np_indices. rewrite length_set_at, Hs, length_set_at. unfold aranges. rewrite !map_length, (Forall2_len _ _ _ Hse), Nat.eqb_refl.
  assert (forall se ns, Forall2 (fun '(s, e) n => 0 <= s < e /\ e <= n) se ns -> filter is_list (map simplify (map (fun '(s, e) => arange s e 1) se)) = [] /\
    sequence (map (fun '(s, n) => np_index s n) (combine (map simplify (map (fun '(s, e) => arange s e 1) se)) ns)) = Some (map (fun '(s, e) => arange s e 1) se)) as K.
  { clear. induction 1 as [|[s e] n se ns Hx H [IH1 IH2]]; [split; reflexivity|]. cbn [map filter combine sequence]. rewrite simplify_arange_slice by lia. split; [exact IH1|].
    rewrite np_index_simplify, IH2; [reflexivity|]. apply Forall_forall. intros x H'. apply In_arange1 in H'. lia. }
  assert (filter is_list (set_at (map simplify (map (fun '(s, e) => arange s e 1) se)) ti whole) = []) as ->.
  { clear Hs Hti. revert ti ns Hse. induction se as [|[s e] se IH]; intros ti ns Hse; inversion Hse; subst; [destruct ti; reflexivity|]. destruct ti as [|ti]; cbn [map set_at filter].
    - cbn. apply (proj1 (K _ _ H3)).
    - rewrite simplify_arange_slice by lia. eapply IH. eassumption. }
  cbn [length Nat.leb andb]. clear Hs a. revert ti Hti. induction Hse as [|[s e] n se ns Hx H IH]; intros ti Hti; [cbn in Hti; lia|]. destruct ti as [|ti]; cbn [map set_at combine sequence].
  - rewrite (proj2 (K _ _ H)). reflexivity.
  - rewrite np_index_simplify, IH; [reflexivity|cbn in Hti; lia|]. apply Forall_forall; intros x H'; apply In_arange1 in H'; lia.
Qed.

Lemma aranges_NoDup se : Forall (@NoDup Z) (aranges se).
Proof. apply Forall_map, Forall_forall. intros [s e] _. apply increasing_NoDup, SmoothView.increasing_arange1. Qed.

Lemma set_runs nout se : forall ns ti, Forall2 (fun '(s, e) n => 0 <= s < e /\ e <= n) se ns -> 0 < nout -> Forall (fun '(s, e) => 0 <= s < e) (set_at se ti (0, nout)).
Proof.
  assert (forall se ns, Forall2 (fun '(s, e) n => 0 <= s < e /\ e <= n) se ns -> Forall (fun '(s, e) => 0 <= s < e) se) as K.
  { clear. induction 1 as [|[s e] n se ns H Hse IH]; constructor; [lia|exact IH]. }
  intros ns ti H Hn. revert ti. induction H as [|[s e] n se ns Hx Hse IH]; intros ti; [destruct ti; constructor|]. destruct ti as [|ti]; cbn [set_at]; constructor; try lia.
  - eapply K, Hse.
  - apply IH.
Qed.

Section Sum.
Context {W : Type} (op : W -> W -> W) (e : W) (M : cmonoid op e) (ti : nat) (outmap : list Z) (nout : Z) (Hnout : 0 < nout)
        (ns : list Z) (Hns : Forall (fun n => 0 < n) ns) (Hti : (ti < length ns)%nat) (w : list Z -> W)
        (block : list (arr num) -> list Z -> option (arr W)).
Definition add_item (big : option (arr W)) (item : list sel * list (arr num) * list Z) : option (arr W) :=
  let '(sl, data, bins) := item in bind big (fun big => bind (block data bins) (fun b => update op big sl b)).
Definition item_ok (c : list (list Z)) (item : list sel * list (arr num) * list Z) : Prop :=
  let '(sl, data, bins) := item in
  exists b b', sl = set_at (map simplify c) ti whole /\ block data bins = Some b /\ broadcast b (set_at (map zlen c) ti nout) = Some b' /\
    forall p, position (set_at (map zlen c) ti nout) p ->
      val b' p = total op e (map (fun k => w (set_at (gather c p) ti k)) (filter (fun k => znth outmap k =? nth ti p 0) (nth ti c []))).

Lemma add_step c item se big : c = aranges se -> Forall2 (fun '(s, e) n => 0 <= s < e /\ e <= n) se ns -> item_ok c item -> shape big = set_at ns ti nout ->
  exists r, add_item (Some big) item = Some r /\ shape r = set_at ns ti nout /\
    forall p, position (set_at ns ti nout) p -> val r p = op (val big p) (total op e (map w (filter (lands ti outmap p) (product c)))).
Proof.
  intros -> Hse Hit Hs. destruct item as [[sl data] bins]. destruct Hit as (b & b' & -> & Hb & Hb' & Hv). cbn [add_item bind]. rewrite Hb. cbn [bind].
  pose proof (Forall2_len _ _ _ Hse) as Ls.
  assert (map zlen (aranges se) = map (fun '(s, e) => e - s) se) as Ez.
  { unfold aranges. rewrite map_map. apply map_ext_in. intros [s x] Hx. assert (0 <= s < x); [|rewrite zlen_arange1; lia].
    clear -Hse Hx. induction Hse as [|[s' e'] n se ns H Hse IH]; [destruct Hx|]. destruct Hx as [E|Hx]; [injection E as -> ->; lia|auto]. }
  assert (map (fun '(s, e) => e - s) (set_at se ti (0, nout)) = set_at (map zlen (aranges se)) ti nout) as Ez'.
  { rewrite map_set_at, Ez. f_equal. lia. }
  rewrite <- Ez' in Hb', Hv.
  destruct (update_at op big b b' (set_at se ti (0, nout)) _ (whole_indices big ns se ti nout Hse Hnout Hs Hti)) as (r & Hr & Hrs & Hrv).
  - eapply set_runs; eassumption.
  - rewrite Hs, !length_set_at. exact Ls.
  - exact Hb'.
  - exists r. split; [exact Hr|]. split; [rewrite Hrs; exact Hs|]. intros p Hp. rewrite <- Hs in Hp. destruct (Hrv p Hp) as [H1 H2]. rewrite Hs in Hp.
    destruct (hits_dec (set_at se ti (0, nout)) p) as [Hh|Hh].
    + rewrite (H1 Hh). f_equal.
      assert (position (map (fun '(s, e) => e - s) (set_at se ti (0, nout))) (shifted_back (set_at se ti (0, nout)) p)) as Hsp.
      { clear -Hh. unfold hits in Hh. induction Hh as [|[s e] x se' p Hx Hh IH]; cbn; constructor; [lia|exact IH]. }
      rewrite (Hv _ Hsp). rewrite (nth_shift nout se ti p Hh) by lia.
      assert (Permutation (filter (lands ti outmap p) (product (aranges se))) (map (set_at p ti) (filter (fun k => znth outmap k =? nth ti p 0) (nth ti (aranges se) [])))) as Hperm.
      { apply piece_hit.
        - apply aranges_NoDup.
        - unfold aranges. rewrite map_length. lia.
        - apply Forall2_len in Hp. unfold aranges. rewrite map_length. rewrite length_set_at in Hp. lia.
        - intros i Hi Hl. unfold aranges in Hl. rewrite map_length in Hl. eapply hits_in; eassumption. }
      unfold total. rewrite (total_perm op e M _ _ (Permutation_map w Hperm)). rewrite map_map. f_equal. apply map_ext. intros k. now rewrite gather_shift by (exact Hh || lia).
    + rewrite (H2 Hh). destruct (miss_in nout ns se ti p Hse Hp Hh) as (i & Hne & Hi & Hm).
      rewrite (piece_miss ti outmap (aranges se) p i Hne); [|unfold aranges; rewrite map_length; exact Hi|exact Hm].
      symmetry. apply (op_unit _ _ M).
Qed.

Lemma add_all C its : Forall2 (fun c it => exists se, LoopProofs.cut (upto ns) se c /\ item_ok c it) C its -> forall big, shape big = set_at ns ti nout ->
  exists r, fold_left add_item its (Some big) = Some r /\ shape r = set_at ns ti nout /\
    forall p, position (set_at ns ti nout) p -> val r p = op (val big p) (total op e (map w (filter (lands ti outmap p) (flat_map product C)))).
Proof.
  assert (Forall (fun n => 0 <= n) ns) as Hns' by (eapply Forall_impl; [|exact Hns]; cbn; lia).
  induction 1 as [|c it C its (se & Hc & Hit) HC IH]; intros big Hs.
  - exists big. split; [reflexivity|]. split; [exact Hs|]. intros p Hp. symmetry. apply (op_unit _ _ M).
  - destruct (cut_upto ns se c Hns' Hc) as [Ec Hse]. destruct (add_step c it se big Ec Hse Hit Hs) as (r & Hr & Hrs & Hrv).
    destruct (IH r Hrs) as (r' & Hr' & Hrs' & Hrv'). exists r'. cbn [fold_left]. rewrite Hr. split; [exact Hr'|]. split; [exact Hrs'|].
    intros p Hp. rewrite (Hrv' p Hp), (Hrv p Hp). cbn [flat_map]. rewrite filter_app, map_app. unfold total. rewrite (total_app op e M). symmetry. apply (op_assoc _ _ M).
Qed.

Theorem add_pieces MAX its : 1 <= MAX -> Forall2 item_ok (loop_mem MAX (upto ns) []) its ->
  exists r, fold_left add_item its (Some (Arr (set_at ns ti nout) (fun _ => e))) = Some r /\ shape r = set_at ns ti nout /\
    forall p, position (set_at ns ti nout) p ->
      val r p = total op e (map (fun k => w (set_at p ti k)) (filter (fun k => znth outmap k =? nth ti p 0) (arange 0 (nth ti ns 0) 1))).
Proof.
  intros HMAX Hit.
  assert (Forall (fun l => l <> []) (upto ns)) as Hne.
  { apply Forall_map. eapply Forall_impl; [|exact Hns]. cbn. intros n Hn H. assert (In 0 (arange 0 n 1)) as K by (apply In_arange1; lia). rewrite H in K. destruct K. }
  destruct (loop_mem_spec MAX (upto ns) [] HMAX Hne) as [Hperm _]; [constructor|constructor|].
  destruct (add_all (loop_mem MAX (upto ns) []) its) with (big := Arr (set_at ns ti nout) (fun _ : list Z => e)) as (r & Hr & Hrs & Hrv).
  - assert (forall c, In c (loop_mem MAX (upto ns) []) -> exists se, LoopProofs.cut (upto ns) se c) as K.
    { intros c Hc. apply subr_split. eapply loop_mem_subr; [exact HMAX|exact Hne|constructor|constructor|exact Hc]. }
    clear -Hit K. induction Hit as [|c it C its H Hit IH]; constructor.
    + destruct (K c (or_introl eq_refl)) as (se & Hse). eauto.
    + apply IH. intros; apply K; now right.
  - reflexivity.
  - exists r. split; [exact Hr|]. split; [exact Hrs|]. intros p Hp. rewrite (Hrv p Hp). cbn [val]. rewrite (op_unit_l op e M).
    unfold total. rewrite (total_perm op e M _ _ (Permutation_map w (filter_perm (lands ti outmap p) _ _ Hperm))).
    assert (Permutation (filter (lands ti outmap p) (product (upto ns))) (map (set_at p ti) (filter (fun k => znth outmap k =? nth ti p 0) (nth ti (upto ns) [])))) as Hp2.
    { pose proof (Forall2_len _ _ _ Hp) as Lp. rewrite length_set_at in Lp. apply piece_hit.
      - unfold upto. apply Forall_map, Forall_forall. intros n _. apply increasing_NoDup, increasing_arange.
      - unfold upto. rewrite map_length. exact Hti.
      - unfold upto. rewrite map_length. lia.
      - intros i Hi Hl. unfold upto in Hl. rewrite map_length in Hl. rewrite nth_upto by exact Hl.
        apply In_arange1. assert (position (set_at ns ti nout) p) as Hp' by exact Hp.
        pose proof (Forall2_nth_error _ _ _ i (nth i (set_at ns ti nout) 0) (nth i p 0) Hp') as K. cbv beta in K. rewrite nth_set_at in K by exact Hti.
        destruct (Nat.eqb_spec ti i); [congruence|]. apply K.
        + rewrite nth_error_set_at by exact Hti. destruct (Nat.eqb_spec ti i); [congruence|]. apply nth_error_nth'. exact Hl.
        + apply nth_error_nth'. lia. }
    rewrite (total_perm op e M _ _ (Permutation_map w Hp2)), map_map. rewrite nth_upto by exact Hti. reflexivity.
Qed.
End Sum.
