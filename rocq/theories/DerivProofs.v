(** Proofs for C36. *)
From Coq Require Import ZArith List Bool Lia QArith_base Qcanon.
From Verif Require Import SortSpec IndexModel IndexSpec IndexProofs ArrModel ArrProofs ViewModel ViewSpec ViewProofs ChunkProofs
     AxisModel AxisSpec AxisProofs VarOpsModel VarOpsSpec VarOpsProofs ReduceModel ReduceSpec LoopProofs RespondProofs UfuncModel UfuncView NumModel StencilModel StencilSpec StencilProofs DiffProofs.
Import ListNotations.
Open Scope Z_scope.

(** *** the points *)
Definition ends1 (df : stencil) (Nd i : Z) : Z * Z :=
  let '(l, r) := match df with Centre => (i - 1, i + 1) | Left => (i - 1, i) | Right => (i, i + 1) end in
  let '(l, r) := (l, if l =? -1 then 1 else r) in
  let '(l, r) := (if l =? -1 then 0 else l, r) in
  let '(l, r) := (if r =? Nd then Nd - 2 else l, r) in
  (l, if r =? Nd then Nd - 1 else r).
Lemma ends_map df Nd ind : ends df Nd ind = map (ends1 df Nd) ind.
Proof. unfold ends. rewrite !map_map. apply map_ext. intros i. unfold ends1. destruct df; reflexivity. Qed.
Lemma ends_between df Nd i : 1 < Nd -> 0 <= i < Nd -> between df Nd i (fst (ends1 df Nd i)) (snd (ends1 df Nd i)).
Proof.
  intros HN Hi. unfold ends1. destruct df; cbn [between].
  - destruct (Z.eqb_spec (i - 1) (-1)).
    + destruct (Z.eqb_spec 1 Nd); cbn [fst snd]; lia.
    + destruct (Z.eqb_spec (i + 1) Nd); cbn [fst snd]; lia.
  - destruct (Z.eqb_spec (i - 1) (-1)).
    + destruct (Z.eqb_spec 1 Nd); cbn [fst snd]; lia.
    + destruct (Z.eqb_spec i Nd); cbn [fst snd]; lia.
  - destruct (Z.eqb_spec i (-1)); [lia|]. destruct (Z.eqb_spec (i + 1) Nd); cbn [fst snd]; lia.
Qed.
Lemma between_range df Nd i l r : 1 < Nd -> 0 <= i < Nd -> between df Nd i l r -> 0 <= l < r /\ r < Nd.
Proof. destruct df; cbn [between]; lia. Qed.
Lemma triple_among Nd i : 2 < Nd -> 0 <= i < Nd -> among Nd i (fst (fst (triple Nd i))) (snd (triple Nd i)) /\ snd (fst (triple Nd i)) = i.
Proof. intros HN Hi. unfold triple, among. destruct (Z.eqb_spec (i - 1) (-1)), (Z.eqb_spec (i + 1) Nd); cbn [fst snd]; lia. Qed.
Lemma among_range Nd i l r : 2 < Nd -> 0 <= i < Nd -> among Nd i l r -> 0 <= l < Nd /\ 0 <= r < Nd /\ l <> i /\ r <> i /\ l <> r.
Proof. unfold among. lia. Qed.

Section Var.
Context (env : axenv) (Henv : env_ok env) (junk : list Z -> num).
Notation get := (ViewModel.get (axis_ops env) junk).

Lemma axis_var_responds a : responds env (axis_var a) (fun p => Fin (Q2Qc (nth (Z.to_nat (nth 0%nat p 0)) (axis_vals a) 0%Q))).
Proof.
  split.
  - intros [|i] [|j] b c Hb Hc Hne; cbn in Hb, Hc; try congruence; try (destruct i; discriminate). destruct j; discriminate.
  - cbn. split; [reflexivity|]. reflexivity.
Qed.
(** the variable that is read for the coordinate *)
Lemma coordinate_var (x : var axis num) d a dx X : nth_error (var_axes x) d = Some a -> coordinates env x d dx X ->
  exists al X0, responds env (match dx with Some dx => dx | None => axis_var a end) X0 /\
    on_axes (var_axes x) al (match dx with Some dx => dx | None => axis_var a end) /\ In d al /\
    forall q, X q = X0 (map (fun i => nth i q 0) al).
Proof.
  intros Ha. destruct dx as [dx|]; cbn [coordinates].
  - intros (al & X0 & H1 & (H2 & H3 & H4) & H5). exists al, X0. repeat split; auto; apply H1.
  - intros H. exists [d]. eexists. split; [apply axis_var_responds|]. split; [|split; [now left|]].
    + split; [repeat constructor; intros []|]. cbn. constructor; [exact Ha|constructor].
    + intros q. cbv beta. cbn [map nth]. now apply H.
Qed.

(** the data and the coordinates at the points [u] along axis [d] *)
Lemma read_both (x dx : var axis num) D X0 al L d a u : responds env x D -> responds env dx X0 -> on_axes (var_axes x) al dx -> In d al ->
  Forall2 selection (var_axes x) L -> nth_error (var_axes x) d = Some a -> selection a u ->
  exists v r ra, modify_slice env (view_of_inds (var_axes x) L) d (SList u) = Some v /\
    get v x true true = Some r /\ get v dx true true = Some ra /\
    let s := set_at (map zlen L) d (zlen u) in
    shows s r (fun p => D (set_at (gather L p) d (znth u (nth d p 0)))) /\ along s d r /\ shape r = s /\
    shows s ra (fun p => X0 (map (fun i => nth i (set_at (gather L p) d (znth u (nth d p 0))) 0) al)) /\ along s d ra.
Proof.
  intros Hx Hdx Ho Hin HL Ha Hu. exists (view_of_inds (var_axes x) (set_at L d u)).
  destruct (read_points env Henv junk x D L d a u Hx HL Ha Hu) as (r & Hr & H1 & H2 & H3).
  destruct (read_other env Henv junk (var_axes x) (set_at L d u) dx X0 al Hdx (proj1 Hx)) as (ra & Hra & H4 & H5); [eapply selection_set; eassumption|exact Ho|].
  exists r, ra. split; [apply (modify_view env junk _ _ _ _ a); auto; apply Hu|]. split; [exact Hr|]. split; [exact Hra|].
  rewrite map_set_at in H4, H5. cbv zeta. split; [exact H1|]. split; [exact H2|]. split; [exact H3|]. split; [|now apply H5].
  eapply shows_ext; [exact H4|]. cbv beta. intros p Hp. now rewrite gather_set.
Qed.

Lemma get_left axes L d a : Forall2 selection axes L -> nth_error axes d = Some a -> exists l, nth_error L d = Some l /\ selection a l.
Proof.
  intros HL Ha. destruct (nth_error L d) as [l|] eqn:E.
  - exists l. split; [reflexivity|]. exact (Forall2_nth_error _ _ _ _ _ _ HL Ha E).
  - apply nth_error_None in E. rewrite <- (Forall2_len _ _ _ HL) in E. assert (d < length axes)%nat by (apply nth_error_Some; congruence). lia.
Qed.
Lemma In_map_range f n l : in_range n l -> (forall i, 0 <= i < n -> 0 <= f i < n) -> in_range n (map f l).
Proof. unfold in_range. rewrite !Forall_forall. intros H1 H2 x Hx. apply in_map_iff in Hx as (i & <- & Hi). auto. Qed.


(** what is picked from them for the points [map f ind] *)
Definition at_points (q : list Z) (d : nat) (f : Z -> Z) : list Z := set_at q d (f (nth d q 0)).
Lemma read_stencil (x dx : var axis num) D X X0 al L d a ind u : responds env x D -> responds env dx X0 -> on_axes (var_axes x) al dx -> In d al ->
  (forall q, X q = X0 (map (fun i => nth i q 0) al)) ->
  Forall2 selection (var_axes x) L -> nth_error (var_axes x) d = Some a -> nth_error L d = Some ind -> sorted u -> u <> [] -> in_range (axis_len a) u ->
  exists v r ra, modify_slice env (view_of_inds (var_axes x) L) d (SList u) = Some v /\
    get v x true true = Some r /\ get v dx true true = Some ra /\
    forall f : Z -> Z, (forall i, In i ind -> In (f i) u) ->
      shows (map zlen L) (take_axis r d (map (searchsorted u) (map f ind))) (fun p => D (at_points (gather L p) d f)) /\
      shape (take_axis r d (map (searchsorted u) (map f ind))) = map zlen L /\
      shows (map zlen L) (take_axis ra d (map (searchsorted u) (map f ind))) (fun p => X (at_points (gather L p) d f)).
Proof.
  intros Hx Hdx Ho Hin HX0 HL Ha Hind Hus Hune Huir.
  assert (selection a u) as Hu by (now apply selection_of_sorted).
  destruct (read_both x dx D X0 al L d a u Hx Hdx Ho Hin HL Ha Hu) as (v & r & ra & Hv & Hr & Hra & H1 & H2 & H3 & H4 & H5).
  exists v, r, ra. split; [exact Hv|]. split; [exact Hr|]. split; [exact Hra|]. intros f Hf.
  set (s := map zlen L) in *.
  assert (nth_error s d = Some (zlen ind)) as Hsd by (unfold s; rewrite nth_error_map, Hind; reflexivity).
  assert (d < length s)%nat as Hds by (apply nth_error_Some; congruence).
  assert (nth_error s d = Some (zlen (map f ind))) as Hsd' by (now rewrite zlen_map).
  set (G := fun p i => D (set_at (gather L p) d i)). set (Gx := fun p i => X0 (map (fun k => nth k (set_at (gather L p) d i) 0) al)).
  assert (forall p i j, G (set_at p d j) i = G p i) as HG by (intros p i j; unfold G; now rewrite gather_set_p, set_at_set).
  assert (forall p i j, Gx (set_at p d j) i = Gx p i) as HGx by (intros p i j; unfold Gx; now rewrite gather_set_p, set_at_set).
  assert (forall k, In k (map f ind) -> In k u) as Il by (intros k Hk; apply in_map_iff in Hk as (i & <- & Hi); now apply Hf).
  destruct (take_points s d r G u (map f ind) Hds HG H1 H2 Hus Il Hsd') as [SL AL].
  destruct (take_points s d ra Gx u (map f ind) Hds HGx H4 H5 Hus Il Hsd') as [SLa _].
  assert (forall p, position s p -> znth (map f ind) (nth d p 0) = f (nth d (gather L p) 0)) as K.
  { intros p Hp. rewrite (nth_gather' L p d ind); [|rewrite <- (Forall2_len _ _ _ Hp); unfold s; now rewrite map_length|exact Hind].
    rewrite znth_map; [reflexivity|]. exact (position_at s p d _ Hp Hsd). }
  split; [|split].
  - eapply shows_ext; [exact SL|]. intros p Hp. unfold G, at_points. now rewrite K.
  - unfold take_axis. cbn [shape]. rewrite H3, set_at_set, zlen_map. now apply set_at_nth.
  - eapply shows_ext; [exact SLa|]. intros p Hp. unfold Gx, at_points. rewrite K by exact Hp. symmetry. apply HX0.
Qed.

Definition left1 df N i := fst (ends1 df N i).
Definition right1 df N i := snd (ends1 df N i).
Theorem deriv_spec (x : var axis num) D d a dx X df : responds env x D -> nth_error (var_axes x) d = Some a -> 1 < axis_len a ->
  coordinates env x d dx X ->
  exists y, deriv_var env junk x d dx df = Some y /\ var_axes y = var_axes x /\
    responds env y (fun q => 
      div (sub (D (at_points q d (right1 df (axis_len a)))) (D (at_points q d (left1 df (axis_len a)))))
          (sub (X (at_points q d (right1 df (axis_len a)))) (X (at_points q d (left1 df (axis_len a)))))).
Proof.
  intros Hx Ha HN HX. destruct (coordinate_var x d a dx X Ha HX) as (al & X0 & Hdx & Ho & Hin & HX0).
  unfold deriv_var. rewrite Ha. cbn [bind]. destruct (Z.leb_spec (axis_len a) 1); [lia|].
  set (dv := match dx with Some dx => dx | None => axis_var a end) in *. eexists. split; [reflexivity|]. split; [reflexivity|].
  split; [exact (proj1 Hx)|]. cbn [var_source var_axes]. intros L HL.
  destruct (get_left _ L d a HL Ha) as (ind & Hind & Hne & Hir & Hinc).
  unfold deriv_view. cbn [vinds view_of_inds]. rewrite (nth_error_nth _ _ [] Hind). rewrite ends_map.
  set (N := axis_len a) in *.
  replace (map fst (map (ends1 df N) ind)) with (map (left1 df N) ind) by (rewrite map_map; reflexivity).
  replace (map snd (map (ends1 df N) ind)) with (map (right1 df N) ind) by (rewrite map_map; reflexivity).
  set (u := union1d (map (left1 df N) ind) (map (right1 df N) ind)).
  assert (forall i, 0 <= i < N -> 0 <= left1 df N i < N /\ 0 <= right1 df N i < N) as Hfr.
  { intros i Hi. pose proof (between_range df N i _ _ ltac:(lia) Hi (ends_between df N i ltac:(lia) Hi)). unfold left1, right1. lia. }
  assert (forall i, In i ind -> In (left1 df N i) u) as Il by (intros i Hi; apply union1d_In; left; now apply in_map).
  assert (forall i, In i ind -> In (right1 df N i) u) as Ir by (intros i Hi; apply union1d_In; right; now apply in_map).
  assert (u <> []) as Hune by (destruct ind as [|i t]; [congruence|]; intros E; specialize (Il i (or_introl eq_refl)); rewrite E in Il; destruct Il).
  assert (in_range N u) as Huir.
  { apply Forall_forall. intros k Hk. apply union1d_In in Hk as [Hk|Hk]; (apply in_map_iff in Hk as (i & <- & Hi); unfold in_range in Hir; rewrite Forall_forall in Hir; now apply Hfr, Hir). }
  destruct (read_stencil x dv D X X0 al L d a ind u Hx Hdx Ho Hin HX0 HL Ha Hind (union1d_sorted _ _) Hune Huir) as (v & r & ra & -> & Hr & Hra & HS).
  cbn [bind]. rewrite Hr. cbn [bind]. rewrite Hra. cbn [bind].
  destruct (HS _ Il) as (SL & ShL & SLa). destruct (HS _ Ir) as (SR & ShR & SRa).
  destruct (op2_shows sub _ _ _ _ _ SR SL) as (cn & Hcn & Scn & Fcn).
  destruct (op2_shows sub _ _ _ _ _ SRa SLa) as (cd & Hcd & Scd & _).
  destruct (op2_shows div _ _ _ _ _ Scn Scd) as (c & Hc & Sc & Fc).
  rewrite Hcn. cbn [bind]. rewrite Hcd. cbn [bind]. exists c. split; [exact Hc|]. apply array_shows; [exact Sc|]. auto.
Qed.

Definition second (l c r Xl Xc Xr : num) : num := 
  let den := div (num_of_Z 2) (mul (mul (sub Xr Xc) (sub Xc Xl)) (sub Xr Xl)) in
  add (add (mul (mul (sub Xr Xc) den) l) (mul (mul (sub Xl Xr) den) c)) (mul (mul (sub Xc Xl) den) r).
Definition left2 N i := fst (fst (triple N i)).
Definition centre2 N i := snd (fst (triple N i)).
Definition right2 N i := snd (triple N i).
Theorem deriv2_spec (x : var axis num) D d a dx X : responds env x D -> nth_error (var_axes x) d = Some a -> 2 < axis_len a ->
  coordinates env x d dx X ->
  exists y, deriv2_var env junk x d dx = Some y /\ var_axes y = var_axes x /\
    responds env y (fun q => let at_ f := at_points q d (f (axis_len a)) in
      second (D (at_ left2)) (D (at_ centre2)) (D (at_ right2)) (X (at_ left2)) (X (at_ centre2)) (X (at_ right2))).
Proof.
  intros Hx Ha HN HX. destruct (coordinate_var x d a dx X Ha HX) as (al & X0 & Hdx & Ho & Hin & HX0).
  unfold deriv2_var. rewrite Ha. cbn [bind]. destruct (Z.leb_spec (axis_len a) 1); [lia|].
  set (dv := match dx with Some dx => dx | None => axis_var a end) in *. eexists. split; [reflexivity|]. split; [reflexivity|].
  split; [exact (proj1 Hx)|]. cbn [var_source var_axes]. intros L HL.
  destruct (get_left _ L d a HL Ha) as (ind & Hind & Hne & Hir & Hinc).
  unfold deriv2_view. cbn [vinds view_of_inds]. rewrite (nth_error_nth _ _ [] Hind).
  set (N := axis_len a) in *.
  replace (map (fun t => fst (fst t)) (map (triple N) ind)) with (map (left2 N) ind) by (rewrite map_map; reflexivity).
  replace (map (fun t => snd (fst t)) (map (triple N) ind)) with (map (centre2 N) ind) by (rewrite map_map; reflexivity).
  replace (map snd (map (triple N) ind)) with (map (right2 N) ind) by (rewrite map_map; reflexivity).
  set (u := union1d (map (left2 N) ind) (union1d (map (centre2 N) ind) (map (right2 N) ind))).
  assert (forall i, 0 <= i < N -> 0 <= left2 N i < N /\ 0 <= centre2 N i < N /\ 0 <= right2 N i < N) as Hfr.
  { intros i Hi. destruct (triple_among N i ltac:(lia) Hi) as [K1 K2]. pose proof (among_range N i _ _ ltac:(lia) Hi K1). unfold left2, centre2, right2. lia. }
  assert (forall i, In i ind -> In (left2 N i) u) as Il by (intros i Hi; apply union1d_In; left; now apply in_map).
  assert (forall i, In i ind -> In (centre2 N i) u) as Ic by (intros i Hi; apply union1d_In; right; apply union1d_In; left; now apply in_map).
  assert (forall i, In i ind -> In (right2 N i) u) as Ir by (intros i Hi; apply union1d_In; right; apply union1d_In; right; now apply in_map).
  assert (u <> []) as Hune by (destruct ind as [|i t]; [congruence|]; intros E; specialize (Il i (or_introl eq_refl)); rewrite E in Il; destruct Il).
  assert (in_range N u) as Huir.
  { apply Forall_forall. intros k Hk. apply union1d_In in Hk as [Hk|Hk]; [|apply union1d_In in Hk as [Hk|Hk]]; (apply in_map_iff in Hk as (i & <- & Hi); unfold in_range in Hir; rewrite Forall_forall in Hir; pose proof (Hfr i (Hir i Hi)); tauto). }
  destruct (read_stencil x dv D X X0 al L d a ind u Hx Hdx Ho Hin HX0 HL Ha Hind (union1d_sorted _ _) Hune Huir) as (v & r & ra & -> & Hr & Hra & HS).
  cbn [bind]. rewrite Hr. cbn [bind]. rewrite Hra. cbn [bind].
  destruct (HS _ Il) as (SL & ShL & SLa). destruct (HS _ Ic) as (SC & ShC & SCa). destruct (HS _ Ir) as (SR & ShR & SRa).
  destruct (op2_shows sub _ _ _ _ _ SRa SCa) as (rc & -> & Src & _). cbn [bind].
  destruct (op2_shows sub _ _ _ _ _ SCa SLa) as (cl & -> & Scl & _). cbn [bind].
  destruct (op2_shows sub _ _ _ _ _ SRa SLa) as (rl & -> & Srl & _). cbn [bind].
  destruct (op2_shows sub _ _ _ _ _ SLa SRa) as (lr & -> & Slr & _). cbn [bind].
  destruct (op2_shows mul _ _ _ _ _ Src Scl) as (m1 & -> & Sm1 & _). cbn [bind].
  destruct (op2_shows mul _ _ _ _ _ Sm1 Srl) as (m2 & -> & Sm2 & _). cbn [bind].
  pose proof (op1_shows (fun z => div (num_of_Z 2) z) _ _ _ Sm2) as Sden. cbv beta in Sden.
  set (den := op1 (fun z => div (num_of_Z 2) z) m2) in *. cbv zeta.
  destruct (op2_shows mul _ _ _ _ _ Src Sden) as (dL & -> & SdL & _). cbn [bind].
  destruct (op2_shows mul _ _ _ _ _ Slr Sden) as (dC & -> & SdC & _). cbn [bind].
  destruct (op2_shows mul _ _ _ _ _ Scl Sden) as (dR & -> & SdR & _). cbn [bind].
  destruct (op2_shows mul _ _ _ _ _ SdL SL) as (tl & -> & Stl & Ftl). cbn [bind].
  destruct (op2_shows mul _ _ _ _ _ SdC SC) as (tc & -> & Stc & _). cbn [bind].
  destruct (op2_shows mul _ _ _ _ _ SdR SR) as (tr & -> & Str & _). cbn [bind].
  destruct (op2_shows add _ _ _ _ _ Stl Stc) as (t & -> & St & Ft). cbn [bind].
  destruct (op2_shows add _ _ _ _ _ St Str) as (c & -> & Sc & Fc).
  exists c. split; [reflexivity|]. apply array_shows; [exact Sc|]. apply Fc. left. apply Ft. left. apply Ftl. right. exact ShL.
Qed.
End Var.
