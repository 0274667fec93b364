(** C39: interpolation along an axis. *)
From Coq Require Import ZArith List Bool Lia QArith_base Qcanon Field Sorting.Sorted.
From Verif Require Import SortSpec IndexModel IndexSpec IndexProofs ArrModel ArrProofs ViewModel ViewSpec ViewProofs AxisModel AxisSpec AxisProofs VarOpsModel VarOpsSpec
     ReduceModel ReduceSpec LoopProofs RespondProofs NumModel StencilModel StencilSpec StencilProofs StencilLemmas ConcatProofs WindowModel SmoothModel SmoothSpec InterpModel InterpSpec InterpProofs InterpLinear InterpView
     ViewProps EnvExample ReduceProps StencilProps WindowProps.
Import ListNotations.
Open Scope Z_scope.

(** interpolate(var, inaxis, outaxis, ...) with any scheme of the library that accepts increasing coordinates: in every row it is
    applied to the points where value and coordinate are finite, in increasing order of the coordinate, whichever direction the axis
    has; outside their range the value at the last point is continued with the slopes d_below, d_above. *)
Theorem C39_library : forall env, env_ok env -> forall (junk : list Z -> num) g x D d a b inx outx X XO up below above transpose omit,
  accepts g -> interpolable env x D d a b inx outx X XO up ->
  exists y E, interpolate env junk g x d b inx outx below above transpose omit = Some y /\ var_axes y = target_axes transpose (var_axes x) d b /\ computes env y E /\
    forall r k, position (map axis_len (remove_at (var_axes x) d)) r ->
      exists pts, the_points (axis_len a) (fun j => X (across r d j)) (fun j => D (across r d j)) pts /\
        by_library g below above pts (XO (r ++ [k])) (E (target transpose r d k)).
Proof.
  intros env Henv junk g x D d a b inx outx X XO up below above transpose omit Hg (H1 & H2 & H3 & H4 & H5 & H6 & H7).
  destruct (interpolate_spec env Henv junk g x D d a b inx outx X XO below above transpose omit up Hg H1 H2 H3 H4 H5 H6 H7) as (y & E & K1 & K2 & K3 & K4).
  exists y, E. split; [exact K1|]. split; [exact K2|]. split; [now apply computed|exact K4].
Qed.
Print Assumptions C39_library.

(** interp_type = 'linear': the chord between the two neighbouring points *)
Theorem C39_linear : forall env, env_ok env -> forall (junk : list Z -> num) x D d a b inx outx X XO up below above transpose omit,
  interpolable env x D d a b inx outx X XO up ->
  exists y E, interpolate env junk gsl_linear x d b inx outx below above transpose omit = Some y /\ var_axes y = target_axes transpose (var_axes x) d b /\ computes env y E /\
    forall r k, position (map axis_len (remove_at (var_axes x) d)) r ->
      chord (axis_len a) (fun j => X (across r d j)) (fun j => D (across r d j)) below above (XO (r ++ [k])) (E (target transpose r d k)).
Proof.
  intros env Henv junk x D d a b inx outx X XO up below above transpose omit H.
  destruct (C39_library env Henv junk gsl_linear x D d a b inx outx X XO up below above transpose omit linear_accepts H) as (y & E & K1 & K2 & K3 & K4).
  exists y, E. split; [exact K1|]. split; [exact K2|]. split; [exact K3|]. intros r k Hr. destruct (K4 r k Hr) as (pts & P1 & P2).
  destruct H as (_ & _ & _ & _ & _ & _ & H7). destruct (H7 r Hr) as [Hm _]. exact (linear_chord up _ _ _ below above pts _ _ Hm P1 P2).
Qed.
Print Assumptions C39_linear.

Lemma two_points n x y pts i j p v p' v' : the_points n x y pts -> point n x y i p v -> point n x y j p' v' -> i <> j -> (p <> p') -> (2 <= length pts)%nat.
Proof.
  intros [H _] Hi Hj _ Hp. assert (In (p, v) pts) as K1 by (apply H; eauto). assert (In (p', v') pts) as K2 by (apply H; eauto).
  destruct pts as [|u [|w pts]]; [destruct K1| |cbn; lia]. destruct K1 as [->|[]]. destruct K2 as [K2|[]]. congruence.
Qed.
Lemma distinct_points up n x y i j p v p' v' : monotone up n x -> point n x y i p v -> point n x y j p' v' -> i <> j -> p <> p'.
Proof.
  intros Hm (Hi & Hx & _) (Hj & Hx' & _) Hne <-. assert (i < j \/ j < i) as [H|H] by lia.
  - specialize (Hm i j p p ltac:(lia) H ltac:(lia) Hx Hx'). destruct up; exact (Qclt_not_le _ _ Hm (Qcle_refl _)).
  - specialize (Hm j i p p ltac:(lia) H ltac:(lia) Hx' Hx). destruct up; exact (Qclt_not_le _ _ Hm (Qcle_refl _)).
Qed.
(** at least two points, and [s] in their range *)
Lemma inside P below above s w : StronglySorted rising P -> (2 <= length P)%nat -> (exists p v, In (p, v) P /\ (p <= s)%Qc) -> (exists p v, In (p, v) P /\ (s <= p)%Qc) ->
  by_library gsl_linear below above P (Fin s) w -> w = linear_value (fins2 P) (Fin s).
Proof.
  intros HP Hl (p & v & Hp & Hps) (p' & v' & Hp' & Hps') Hw. unfold by_library in Hw. destruct (Z.ltb_spec (zlen P) (min_size gsl_linear)) as [K|K]; [cbn in K; unfold zlen in K; lia|].
  destruct (nth_error P 0) as [[p0 v0]|] eqn:E0; [|apply nth_error_None in E0; lia]. destruct (nth_error P (length P - 1)) as [[p1 v1]|] eqn:E1; [|apply nth_error_None in E1; lia].
  destruct (Hw p0 v0 p1 v1 eq_refl eq_refl) as (_ & _ & H). apply H.
  - cbn [ltb]. apply qc_ltb_false. apply In_nth_error in Hp as (i & Hi). destruct i as [|i]; [rewrite Hi in E0; injection E0 as -> ->; exact Hps|].
    pose proof (sorted_nth rising P HP 0%nat (S i) _ _ E0 Hi ltac:(lia)) as H0. apply Qclt_le_weak in H0. exact (Qcle_trans _ _ _ H0 Hps).
  - cbn [ltb]. apply qc_ltb_false. apply In_nth_error in Hp' as (i & Hi). assert (i < length P)%nat as Hil by (apply nth_error_Some; congruence).
    destruct (Nat.eq_dec i (length P - 1)) as [->|Hne]; [rewrite Hi in E1; injection E1 as -> ->; exact Hps'|].
    pose proof (sorted_nth rising P HP i (length P - 1)%nat _ _ Hi E1 ltac:(lia)) as H0. apply Qclt_le_weak in H0. exact (Qcle_trans _ _ _ Hps' H0).
Qed.
Lemma enclosed P s : (2 <= length P)%nat -> (exists p v, nth_error P 0 = Some (p, v) /\ (p <= s)%Qc) -> (exists p v, In (p, v) P /\ (s <= p)%Qc) -> StronglySorted rising P ->
  exists i p v p' v', nth_error P i = Some (p, v) /\ nth_error P (S i) = Some (p', v') /\ (p <= s)%Qc /\ (s <= p')%Qc.
Proof.
  induction P as [|[p0 v0] P IH]; intros Hl (p & v & Hp & Hps) Hq HS; [cbn in Hl; lia|]. cbn in Hp. injection Hp as -> ->. destruct P as [|[p1 v1] P]; [cbn in Hl; lia|].
  destruct (Qclt_le_dec p1 s) as [H|H].
  - inversion HS as [|? ? HS1 HS2]; subst. destruct Hq as (q & w & Hq & Hsq).
    assert (In (q, w) ((p1, v1) :: P)) as Hq'. { destruct Hq as [Hq|Hq]; [|exact Hq]. injection Hq as <- <-. exfalso. pose proof (proj1 (Forall_forall _ _) HS2 (p1, v1) (or_introl eq_refl)) as K. unfold rising in K. cbn in K.
      exact (Qclt_not_le _ _ (Qclt_trans _ _ _ K H) Hsq). }
    assert (2 <= length ((p1, v1) :: P))%nat as Hl'.
    { destruct P; [|cbn; lia]. destruct Hq' as [Hq'|[]]. injection Hq' as <- <-. exfalso. exact (Qclt_not_le _ _ H Hsq). }
    destruct (IH Hl' (ex_intro _ p1 (ex_intro _ v1 (conj eq_refl (Qclt_le_weak _ _ H)))) (ex_intro _ q (ex_intro _ w (conj Hq' Hsq))) HS1) as (i & a & b & c & e & K). exists (S i), a, b, c, e. exact K.
  - exists 0%nat, p, v, p1, v1. repeat split; assumption.
Qed.

(** ... so that it returns the value of the data at every coordinate of the data, *)
Theorem C39_nodes : forall env, env_ok env -> forall (junk : list Z -> num) x D d a b inx outx X XO up below above transpose omit,
  interpolable env x D d a b inx outx X XO up ->
  exists y E, interpolate env junk gsl_linear x d b inx outx below above transpose omit = Some y /\ computes env y E /\
    forall r k i j p v p' v', position (map axis_len (remove_at (var_axes x) d)) r ->
      let x' j := X (across r d j) in let y' j := D (across r d j) in
      point (axis_len a) x' y' i p v -> point (axis_len a) x' y' j p' v' -> i <> j -> XO (r ++ [k]) = Fin p -> E (target transpose r d k) = Fin v.
Proof.
  intros env Henv junk x D d a b inx outx X XO up below above transpose omit H.
  destruct (C39_library env Henv junk gsl_linear x D d a b inx outx X XO up below above transpose omit linear_accepts H) as (y & E & K1 & K2 & K3 & K4).
  exists y, E. split; [exact K1|]. split; [exact K3|]. intros r k i j p v p' v' Hr x' y' Hi Hj Hij HXO. destruct (K4 r k Hr) as (pts & P1 & P2).
  destruct H as (_ & _ & _ & _ & _ & _ & H7). destruct (H7 r Hr) as [Hm _].
  pose proof (two_points _ _ _ _ _ _ _ _ _ _ P1 Hi Hj Hij (distinct_points up _ _ _ _ _ _ _ _ _ Hm Hi Hj Hij)) as Hl. pose proof P1 as [Pin Psort]. apply sorted_rising in Psort.
  assert (In (p, v) pts) as Hin by (apply Pin; exists i; exact Hi). rewrite HXO in P2.
  rewrite (inside pts below above p _ Psort Hl (ex_intro _ p (ex_intro _ v (conj Hin (Qcle_refl _)))) (ex_intro _ p (ex_intro _ v (conj Hin (Qcle_refl _)))) P2).
  apply In_nth_error in Hin as (m & Hmth). exact (linear_node pts Psort Hl m p v Hmth).
Qed.
Print Assumptions C39_nodes.

(** ... and linear functions of the coordinate exactly *)
Theorem C39_exact : forall env, env_ok env -> forall (junk : list Z -> num) x D d a b inx outx X XO up below above transpose omit,
  interpolable env x D d a b inx outx X XO up ->
  exists y E, interpolate env junk gsl_linear x d b inx outx below above transpose omit = Some y /\ computes env y E /\
    forall r k (slope offset s : Qc) i j p v p' v', position (map axis_len (remove_at (var_axes x) d)) r ->
      let x' j := X (across r d j) in let y' j := D (across r d j) in
      (forall m q w, point (axis_len a) x' y' m q w -> w = (slope * q + offset)%Qc) ->
      point (axis_len a) x' y' i p v -> point (axis_len a) x' y' j p' v' -> i <> j ->
      XO (r ++ [k]) = Fin s -> (p <= s)%Qc -> (s <= p')%Qc -> E (target transpose r d k) = Fin (slope * s + offset)%Qc.
Proof.
  intros env Henv junk x D d a b inx outx X XO up below above transpose omit H.
  destruct (C39_library env Henv junk gsl_linear x D d a b inx outx X XO up below above transpose omit linear_accepts H) as (y & E & K1 & K2 & K3 & K4).
  exists y, E. split; [exact K1|]. split; [exact K3|]. intros r k slope offset s i j p v p' v' Hr x' y' Hlin Hi Hj Hij HXO Hps Hps'. destruct (K4 r k Hr) as (pts & P1 & P2).
  destruct H as (_ & _ & _ & _ & _ & _ & H7). destruct (H7 r Hr) as [Hm _].
  pose proof (two_points _ _ _ _ _ _ _ _ _ _ P1 Hi Hj Hij (distinct_points up _ _ _ _ _ _ _ _ _ Hm Hi Hj Hij)) as Hl. pose proof P1 as [Pin Psort]. apply sorted_rising in Psort.
  assert (In (p, v) pts) as Hin by (apply Pin; exists i; exact Hi). assert (In (p', v') pts) as Hin' by (apply Pin; exists j; exact Hj). rewrite HXO in P2.
  rewrite (inside pts below above s _ Psort Hl (ex_intro _ p (ex_intro _ v (conj Hin Hps))) (ex_intro _ p' (ex_intro _ v' (conj Hin' Hps'))) P2).
  destruct (enclosed pts s Hl) as (m & q & w & q' & w' & M1 & M2 & M3 & M4).
  - destruct (nth_error pts 0) as [[p0 v0]|] eqn:E0; [|apply nth_error_None in E0; lia]. exists p0, v0. split; [reflexivity|]. apply In_nth_error in Hin as ([|m] & Hmth).
    + rewrite Hmth in E0. injection E0 as -> ->. exact Hps.
    + pose proof (sorted_nth rising pts Psort 0%nat (S m) _ _ E0 Hmth ltac:(lia)) as H0. apply Qclt_le_weak in H0. exact (Qcle_trans _ _ _ H0 Hps).
  - exists p', v'. auto.
  - exact Psort.
  - rewrite (linear_between pts Psort m q w q' w' s M1 M2 M3 M4). f_equal.
    pose proof (sorted_nth rising pts Psort m (S m) _ _ M1 M2 ltac:(lia)) as Hlt. unfold rising in Hlt. cbn in Hlt. pose proof (lt_nonzero q q' Hlt) as Hnz.
    apply nth_error_In in M1, M2. apply Pin in M1 as (j1 & M1), M2 as (j2 & M2). rewrite (Hlin _ _ _ M1), (Hlin _ _ _ M2). field. exact Hnz.
Qed.
Print Assumptions C39_exact.

(** by default (d_below = d_above = NaN) nothing is extrapolated *)
Theorem C39_outside : forall env, env_ok env -> forall (junk : list Z -> num) g x D d a b inx outx X XO up transpose omit,
  accepts g -> interpolable env x D d a b inx outx X XO up ->
  exists y E, interpolate env junk g x d b inx outx NaN NaN transpose omit = Some y /\ computes env y E /\
    forall r k t, position (map axis_len (remove_at (var_axes x) d)) r ->
      let x' j := X (across r d j) in let y' j := D (across r d j) in
      XO (r ++ [k]) = Fin t ->
      (forall j p v, point (axis_len a) x' y' j p v -> (t < p)%Qc) \/ (forall j p v, point (axis_len a) x' y' j p v -> (p < t)%Qc) -> E (target transpose r d k) = NaN.
Proof.
  intros env Henv junk g x D d a b inx outx X XO up transpose omit Hg H.
  destruct (C39_library env Henv junk g x D d a b inx outx X XO up NaN NaN transpose omit Hg H) as (y & E & K1 & K2 & K3 & K4).
  exists y, E. split; [exact K1|]. split; [exact K3|]. intros r k t Hr x' y' HXO Hout. destruct (K4 r k Hr) as (pts & [Pin _] & P2). fold x' y' in Pin.
  rewrite HXO in P2. unfold by_library in P2. destruct (Z.ltb_spec (zlen pts) (min_size g)) as [K|K]; [exact P2|]. destruct Hg as [Hg _].
  assert (0 < length pts)%nat as Hl by (unfold zlen in K; lia).
  destruct (nth_error pts 0) as [[p0 v0]|] eqn:E0; [|apply nth_error_None in E0; lia]. destruct (nth_error pts (length pts - 1)) as [[p1 v1]|] eqn:E1; [|apply nth_error_None in E1; lia].
  destruct (P2 p0 v0 p1 v1 eq_refl eq_refl) as (B1 & B2 & _). destruct Hout as [Ho|Ho].
  - apply nth_error_In, Pin in E0 as (j & Hj). rewrite B1; [cbn; destruct (gsl_value g (fins2 pts) (Fin p0)); reflexivity|]. cbn. apply qc_ltb_spec. exact (Ho _ _ _ Hj).
  - apply nth_error_In, Pin in E1 as (j & Hj). rewrite B2; [cbn; destruct (gsl_value g (fins2 pts) (Fin p1)); reflexivity|]. cbn. apply qc_ltb_spec. exact (Ho _ _ _ Hj).
Qed.
Print Assumptions C39_outside.

(** 1, 4, 9 at 0, 5, 7 (and ten times as much), interpolated to 1, 5, 6, 9 *)
Definition tens (i : Z) : Z := if i =? 0 then 1 else 10.
Definition columns_data (q : list Z) : num := num_of_Z (tens (nth 1 q 0) * ((nth 0 q 0 + 1) * (nth 0 q 0 + 1))).
Definition columns : var axis num := source [lon3; lat2] columns_data.
Definition lon4 : axis := Coord (MkCoord Plain [2; 6] 3 [1; 5; 6; 9]%Q [] [] (1 # 100000)).
Lemma apart_two (a b : axis) : unrelated a b -> unrelated b a -> separate [a; b].
Proof.
  intros H1 H2 i j u v Hu Hv Hij. destruct i as [|[|i]], j as [|[|j]]; cbn in Hu, Hv; try (destruct i; discriminate); try (destruct j; discriminate); try congruence;
    injection Hu as <-; injection Hv as <-; assumption.
Qed.
Lemma lon3_lat2 : separate [lon3; lat2].
Proof. apply apart_two; repeat split. Qed.
Lemma lat2_lon4 : separate [lat2; lon4].
Proof. apply apart_two; repeat split. Qed.
(** the coordinates: the axis itself, and a field that decreases along it, with the axes in the other order *)
Definition axis_coordinates (q : list Z) : num := Fin (Q2Qc (nth (Z.to_nat (nth 0 q 0)) [0; 5; 7]%Q 0%Q)).
Definition depth_data (q : list Z) : num := Fin (Q2Qc (- nth (Z.to_nat (nth 1 q 0)) [0; 5; 7]%Q 0%Q * (1 + inject_Z (nth 0 q 0)))).
Definition depth : var axis num := source [lat2; lon3] depth_data.
Definition targets (q : list Z) : num := Fin (Q2Qc (nth (Z.to_nat (nth 1 q 0)) [1; 5; 6; 9]%Q 0%Q)).
Lemma three_indices (P : Z -> Prop) : P 0 -> P 1 -> P 2 -> forall i, 0 <= i < 3 -> P i.
Proof. intros H0 H1 H2 i Hi. assert (i = 0 \/ i = 1 \/ i = 2) as [->|[->| ->]] by lia; assumption. Qed.
Lemma monotone_three (up : bool) c : (forall p q, c 0 = Fin p -> c 1 = Fin q -> qc_ltb (if up then p else q) (if up then q else p) = true) ->
  (forall p q, c 1 = Fin p -> c 2 = Fin q -> qc_ltb (if up then p else q) (if up then q else p) = true) ->
  (forall p q, c 0 = Fin p -> c 2 = Fin q -> qc_ltb (if up then p else q) (if up then q else p) = true) -> monotone up 3 c.
Proof.
  intros H1 H2 H3 i j p q Hi Hij Hj Hp Hq. assert (i = 0 /\ j = 1 \/ i = 1 /\ j = 2 \/ i = 0 /\ j = 2) as [[-> ->]|[[-> ->]|[-> ->]]] by lia; [specialize (H1 _ _ Hp Hq)|specialize (H2 _ _ Hp Hq)|specialize (H3 _ _ Hp Hq)]; destruct up; now apply qc_ltb_spec.
Qed.
Lemma columns_rows r : position (map axis_len (remove_at (var_axes columns) 0)) r -> r = [0] \/ r = [1].
Proof. intros H. cbn in H. inversion H as [|? x ? ? Hx Hn]; subst. inversion Hn; subst. assert (x = 0 \/ x = 1) as [->| ->] by lia; auto. Qed.

Example C39_interpolable : interpolable env0 columns columns_data 0 lon3 lon4 None None axis_coordinates targets true.
Proof.
  split; [apply source_responds, lon3_lat2|]. split; [reflexivity|]. split; [reflexivity|]. split; [intros a q Ha; injection Ha as <-; reflexivity|].
  split; [intros a q Ha; injection Ha as <-; reflexivity|]. split; [exact lat2_lon4|]. intros r Hr. split.
  - apply monotone_three; intros p q; destruct (columns_rows r Hr) as [->| ->]; cbn; intros Hp Hq; injection Hp as <-; injection Hq as <-; vm_compute; reflexivity.
  - right. exists 0. destruct (columns_rows r Hr) as [->| ->]; eexists _, _; (split; [cbn; lia|]); split; reflexivity.
Qed.
Example C39_interpolable_field : interpolable env0 columns columns_data 0 lon3 lon4 (Some depth) None (fun q => depth_data [nth 1 q 0; nth 0 q 0]) targets false.
Proof.
  split; [apply source_responds, lon3_lat2|]. split; [reflexivity|]. split; [reflexivity|].
  split. { exists [1%nat; 0%nat], depth_data. split; [apply source_responds, field_responds|]. split; [constructor; [intros [H|[]]; discriminate|constructor; [intros []|constructor]]|]. split; [right; now left|]. split; [repeat constructor|]. reflexivity. }
  split; [intros a q Ha; injection Ha as <-; reflexivity|]. split; [exact lat2_lon4|]. intros r Hr. split.
  - apply monotone_three; intros p q; destruct (columns_rows r Hr) as [->| ->]; cbn; intros Hp Hq; injection Hp as <-; injection Hq as <-; vm_compute; reflexivity.
  - right. exists 0. destruct (columns_rows r Hr) as [->| ->]; eexists _, _; (split; [cbn; lia|]); split; reflexivity.
Qed.
Example C39_example :
  show (interpolate env0 zs gsl_linear columns 0 lon4 None None NaN NaN true false) [[0; 1]; [0; 1; 2; 3]] [[0; 0]; [0; 1]; [0; 2]; [0; 3]; [1; 2]] =
    Some ([2; 4], [Some (8 # 5); Some 4; Some (13 # 2); None; Some 65]%Q) /\
  show (interpolate env0 zs gsl_linear columns 0 lon4 None None NaN (num_of_Z 2) false false) [[2; 3]; [0; 1]] [[0; 0]; [1; 0]; [1; 1]] =
    Some ([2; 2], [Some (13 # 2); Some 13; Some 94]%Q) /\
  show (interpolate env0 zs gsl_linear columns 0 lon4 (Some depth) (Some (source [lon4] (fun q => num_of_Z (- (nth 0 q 0 + 1))))) NaN NaN true true) [[0; 1]; [0; 1]] [[0; 0]; [0; 1]; [1; 0]; [1; 1]] =
    Some ([2; 2], [Some (8 # 5); Some (11 # 5); Some 13; Some 16]%Q).
Proof. split; [|split]; vm_compute; reflexivity. Qed.
Example C39_used : exists y E, interpolate env0 zs gsl_linear columns 0 lon4 None None NaN NaN true false = Some y /\ computes env0 y E /\ E [1; 1] = num_of_Z 40.
Proof.
  destruct (C39_nodes env0 env0_ok zs columns columns_data 0%nat lon3 lon4 None None axis_coordinates targets true NaN NaN true false C39_interpolable) as (y & E & H1 & H2 & H3).
  exists y, E. split; [exact H1|]. split; [exact H2|]. cbv zeta in H3.
  apply (H3 [1] 1 1 0 (Q2Qc 5) (Q2Qc 40) (Q2Qc 0) (Q2Qc 10)); [repeat constructor; cbn; lia| | |lia|reflexivity]; (split; [cbn; lia|]); split; reflexivity.
Qed.

(** *** where it fails *)
(** coordinates 1, NaN, 3: monotone, with two points, but the C code looks for two finite neighbours beyond the end of the array *)
Theorem C39_gap_refuted : exists (x : var axis num) D inx X y, responds env0 x D /\ coordinates_on env0 (var_axes x) 0 (Some inx) X /\
  monotone true 3 (fun j => X [j]) /\ (exists i j p v p' v', point 3 (fun j => X [j]) (fun j => D [j]) i p v /\ point 3 (fun j => X [j]) (fun j => D [j]) j p' v' /\ i <> j) /\
  interpolate env0 zs gsl_linear x 0 lon4 (Some inx) None NaN NaN true false = Some y /\ var_get env0 zs y = None.
Proof.
  set (X := fun q : list Z => if nth 0 q 0 =? 1 then NaN else num_of_Z (nth 0 q 0 + 1)).
  exists line. eexists. exists (source [lon3] X), X. eexists. split; [exact line_responds|].
  split. { exists [0%nat], X. split; [apply source_responds, lon3_separate|]. split; [repeat constructor; intros []|]. split; [now left|]. split; [repeat constructor|]. reflexivity. }
  split. { apply monotone_three; intros p q; cbn; intros Hp Hq; try discriminate; injection Hp as <-; injection Hq as <-; vm_compute; reflexivity. }
  split. { exists 0, 2. eexists _, _, _, _. split; [split; [lia|]; split; reflexivity|]. split; [split; [lia|]; split; reflexivity|lia]. }
  split; [reflexivity|]. vm_compute. reflexivity.
Qed.
Print Assumptions C39_gap_refuted.
(** the coordinates increase in one row and decrease in the other: the direction of the first row is assumed in the second *)
Theorem C39_directions_refuted : exists (x : var axis num) D inx X y, responds env0 x D /\ coordinates_on env0 (var_axes x) 0 (Some inx) X /\
  var_axes x = [lon3; lat2] /\ (forall i, i = 0 \/ i = 1 -> exists up, monotone up 3 (fun j => X [j; i]) /\ neighbours 3 (fun j => X [j; i])) /\
  interpolate env0 zs gsl_linear x 0 lon4 (Some inx) None NaN NaN true false = Some y /\ var_get env0 zs y = None.
Proof.
  set (X := fun q : list Z => if nth 1 q 0 =? 0 then num_of_Z (nth 0 q 0) else num_of_Z (- nth 0 q 0)).
  exists columns, columns_data, (source [lon3; lat2] X), X. eexists. split; [apply source_responds, lon3_lat2|].
  split. { exists [0%nat; 1%nat], X. split; [apply source_responds, lon3_lat2|]. split; [constructor; [intros [H|[]]; discriminate|constructor; [intros []|constructor]]|]. split; [now left|]. split; [repeat constructor|]. reflexivity. }
  split; [reflexivity|]. split.
  { intros i Hi. exists (i =? 0). split.
    - destruct Hi as [->| ->]; apply monotone_three; intros p q; cbn; intros Hp Hq; injection Hp as <-; injection Hq as <-; vm_compute; reflexivity.
    - right. exists 0. destruct Hi as [->| ->]; eexists _, _; (split; [lia|]); split; reflexivity. }
  split; [reflexivity|]. vm_compute. reflexivity.
Qed.
Print Assumptions C39_directions_refuted.
(** transpose = True, documented to put the new axis where the old one was, leaves it at the end; transpose = False puts it there *)
Theorem C39_transpose_refuted : exists (x : var axis num) D b X XO y y', interpolable env0 x D 0 lon3 b None None X XO true /\ var_axes x = [lon3; lat2] /\
  interpolate env0 zs gsl_linear x 0 b None None NaN NaN true false = Some y /\ var_axes y = [lat2; b] /\
  interpolate env0 zs gsl_linear x 0 b None None NaN NaN false false = Some y' /\ var_axes y' = [b; lat2].
Proof. exists columns, columns_data, lon4, axis_coordinates, targets. eexists _, _. split; [exact C39_interpolable|]. split; [reflexivity|]. repeat split. Qed.
Print Assumptions C39_transpose_refuted.
(** omit_nonmonotonic skips points whose coordinate is smaller than the one before, but not those where it is the same: 0, 0, 1 *)
Theorem C39_repeated_refuted : exists (x : var axis num) D inx X y y', responds env0 x D /\ coordinates_on env0 (var_axes x) 0 (Some inx) X /\
  interpolate env0 zs gsl_linear x 0 lon4 (Some inx) None NaN NaN true true = Some y /\ (X [0], X [1], X [2]) = (num_of_Z 0, num_of_Z 1, num_of_Z 1) /\ var_get env0 zs y = None /\
  (* 0, 1, 0.5 makes no trouble *)
  interpolate env0 zs gsl_linear x 0 lon4 (Some (source [lon3] (fun q => nth (Z.to_nat (nth 0 q 0)) [num_of_Z 0; num_of_Z 1; Fin (Q2Qc (1 # 2))] NaN))) None NaN NaN true true = Some y' /\ var_get env0 zs y' <> None.
Proof.
  set (X := fun q : list Z => if nth 0 q 0 =? 0 then num_of_Z 0 else num_of_Z 1).
  exists line. eexists. exists (source [lon3] X), X. eexists _, _. split; [exact line_responds|].
  split. { exists [0%nat], X. split; [apply source_responds, lon3_separate|]. split; [repeat constructor; intros []|]. split; [now left|]. split; [repeat constructor|]. reflexivity. }
  split; [reflexivity|]. split; [reflexivity|]. split; [vm_compute; reflexivity|]. split; [reflexivity|]. vm_compute. discriminate.
Qed.
Print Assumptions C39_repeated_refuted.
