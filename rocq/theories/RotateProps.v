(** C64: rotating longitudes. *)
From Coq Require Import ZArith List Bool QArith Qround Qabs String Permutation Lia Lqa.
From Verif Require Import SortSpec IndexModel IndexSpec IndexProofs ArrModel ViewModel ViewProofs AxisModel AxisSpec AxisProofs VarOpsModel VarOpsSpec VarOpsLemmas TimeSearchSpec
  StencilModel SelectModel SelectSpec SelectProofs ConcatModel ChunkProofs EnvExample ViewProps VarOpsProps SelectProps RotateModel RotateSpec.
Import ListNotations.
Open Scope Z_scope.

(** ** arithmetic *)
Lemma pymod_range x : (0 <= pymod x 360 /\ pymod x 360 < 360)%Q.
Proof.
  unfold pymod. pose proof (Qfloor_le (x / 360)) as L. pose proof (Qlt_floor (x / 360)) as U. rewrite inject_Z_plus in U. change (inject_Z 1) with 1%Q in U.
  assert (E : (x == 360 * (x / 360))%Q) by (field). revert L U E. generalize (inject_Z (Qfloor (x / 360))) (x / 360)%Q. intros f y L U E. split; lra.
Qed.
Lemma pymod_turn x : exists n, (pymod x 360 == x + inject_Z (360 * n))%Q.
Proof. unfold pymod. exists (- Qfloor (x / 360)). rewrite inject_Z_mult, inject_Z_opp. change (inject_Z 360) with 360%Q. ring. Qed.
Lemma turned_spec origin l : same_meridian (turned origin l) l /\ in_turn origin (turned origin l).
Proof.
  unfold turned. cbv zeta. set (o := pymod origin 360). destruct (pymod_turn origin) as [n Hn]. fold o in Hn. destruct (pymod_turn (l - o)) as [m Hm]. destruct (pymod_range (l - o)) as [R1 R2].
  clearbody o. revert Hm R1 R2. generalize (pymod (l - o) 360). intros q Hm R1 R2. split.
  - exists (m - n). replace (360 * (m - n)) with (360 * m - 360 * n) by lia. unfold Z.sub. rewrite inject_Z_plus, inject_Z_opp. lra.
  - split; lra.
Qed.

(** ** changing one axis *)
Lemma nth_error_set {A} (l : list A) i j v : nth_error (set_at l i v) j = if Nat.eqb i j then (if Nat.ltb i (List.length l) then Some v else None) else nth_error l j.
Proof.
  revert i j. induction l as [|x l IH]; intros [|i] [|j]; try reflexivity. 
  - cbn [set_at nth_error Nat.eqb]. destruct (Nat.eqb i j); reflexivity.
  - cbn [set_at nth_error Nat.eqb]. rewrite IH. reflexivity.
Qed.
Section Rotation.
Context (N : naming) (env : axenv) (Henv : env_ok env) (cls : list Z) (nm : Z).
Lemma lon_unrelated c vals b : c_kind c = Plain -> c_class c = cls -> (unrelated (Coord c) b -> unrelated (lon_axis env cls nm vals) b) /\ (unrelated b (Coord c) -> unrelated b (lon_axis env cls nm vals)).
Proof.
  intros K C. unfold unrelated, lon_axis, axis_class. cbn [c_kind c_class c_name]. rewrite K, C. split; [exact (fun H => H)|]. destruct b as [d|d|d]; try exact (fun H => H).
Qed.
Lemma set_separate axes i c vals : separate axes -> nth_error axes i = Some (Coord c) -> c_kind c = Plain -> c_class c = cls -> separate (set_at axes i (lon_axis env cls nm vals)).
Proof.
  intros S Hi K C j k a b Ha Hb Hne. rewrite nth_error_set in Ha, Hb. assert (L : (i < List.length axes)%nat) by (apply nth_error_Some; congruence). apply Nat.ltb_lt in L. rewrite L in Ha, Hb.
  destruct (Nat.eqb_spec i j) as [<-|Nj], (Nat.eqb_spec i k) as [<-|Nk]; [congruence| | |exact (S j k a b Ha Hb Hne)].
  - injection Ha as <-. apply (lon_unrelated c vals b K C). exact (S i k _ b Hi Hb Hne).
  - injection Hb as <-. apply (lon_unrelated c vals a K C). exact (S j i a _ Ha Hi Hne).
Qed.
Lemma set_lengths axes i c vals : nth_error axes i = Some (Coord c) -> List.length vals = List.length (c_vals c) -> map axis_len (set_at axes i (lon_axis env cls nm vals)) = map axis_len axes.
Proof.
  intros Hi L. revert i Hi. induction axes as [|a axes IH]; intros [|i] Hi; try discriminate.
  - cbn in Hi. injection Hi as ->. cbn. f_equal. unfold zlen. cbn. now rewrite L.
  - cbn in *. f_equal. now apply IH.
Qed.
Lemma which_set axes i vals : first_axis N axes "lon" i -> alias N (lon_axis env cls nm vals) "lon" = true -> which_axis N (set_at axes i (lon_axis env cls nm vals)) "lon" = Some i.
Proof.
  intros [(a & Ha & _) Hf] Hl. apply which_axis_spec. assert (L : (i < List.length axes)%nat) by (apply nth_error_Some; congruence). apply Nat.ltb_lt in L. split.
  - exists (lon_axis env cls nm vals). rewrite nth_error_set, Nat.eqb_refl, L. auto.
  - intros j b Hj Hb. rewrite nth_error_set in Hb. destruct (Nat.eqb_spec i j); [lia|]. exact (Hf j b Hj Hb).
Qed.
Lemma turned_separated origin lons : distinct_meridians origin lons -> separated (map (turned origin) lons).
Proof.
  intros H j j' u u' Hu Hu' Hne. apply elem_map in Hu as (x & Hx & ->). apply elem_map in Hu' as (x' & Hx' & ->).
  destruct (turned_spec origin x), (turned_spec origin x'). now apply (H j j' x x').
Qed.
Lemma set_good axes i vals : Forall good_axis axes -> separated vals -> Forall good_axis (set_at axes i (lon_axis env cls nm vals)).
Proof.
  intros F S. assert (G : good_axis (lon_axis env cls nm vals)) by (cbn; split; [exact S|]; split; [constructor | apply Henv]).
  revert i. induction F as [|a axes Ha F IH]; intros [|i]; cbn; constructor; auto.
Qed.
Lemma sort_axes axes i : forall k, map (fun '(a, o) => match o with Some r => axis_take env a (axis_argsort env a r) | None => a end) (combine axes (map (fun j => if Nat.eqb j (k + i) then Some false else None) (seq k (List.length axes)))) =
  match nth_error axes i with Some a => set_at axes i (axis_take env a (axis_argsort env a false)) | None => axes end.
Proof.
  revert i. assert (G : forall axes m k, (m < k)%nat -> map (fun '(a, o) => match o with Some r => axis_take env a (axis_argsort env a r) | None => a end) (combine axes (map (fun j => if Nat.eqb j m then Some false else None) (seq k (List.length axes)))) = axes).
  { clear. induction axes as [|a axes IH]; intros m k H; [reflexivity|]. cbn [List.length seq map combine]. destruct (Nat.eqb_spec k m); [lia|]. f_equal. apply IH. lia. }
  induction axes as [|a axes IH]; intros [|i] k; try reflexivity; cbn [List.length seq map combine nth_error].
  - rewrite Nat.add_0_r, Nat.eqb_refl. cbn [set_at]. f_equal. apply G. lia.
  - destruct (Nat.eqb_spec k (k + S i)); [lia|]. replace (k + S i)%nat with (S k + i)%nat by lia. rewrite IH. destruct (nth_error axes i); reflexivity.
Qed.
End Rotation.

Lemma picks_one shape : forall inds p i l k j, List.length inds = List.length shape ->
  (forall m n l, m <> i -> nth_error shape m = Some n -> nth_error inds m = Some l -> zlen l = n /\ forall k j, elem l k j -> j = k) ->
  nth_error inds i = Some l -> elem l k j -> position shape p -> picks inds (set_at p i k) (set_at p i j).
Proof.
  induction shape as [|n shape IH]; intros inds p i l k j L H Hi He Hp; [destruct inds; [destruct i|]; discriminate|].
  destruct inds as [|l0 inds]; [discriminate|]. inversion Hp as [|? q ? p' Hq Hp']; subst. destruct i as [|i]; cbn [set_at].
  - cbn in Hi. injection Hi as ->. constructor; [exact He|]. clear He. assert (L' : List.length inds = List.length shape) by (now injection L). clear L IH Hp.
    assert (G : forall m n l, nth_error shape m = Some n -> nth_error inds m = Some l -> zlen l = n /\ forall k j, elem l k j -> j = k) by (intros m n' l' H1 H2; exact (H (S m) n' l' ltac:(lia) H1 H2)).
    clear H. revert inds L' G. induction Hp' as [|n' q' shape p' Hq' Hp' IH']; intros [|l1 inds] L' G; try discriminate; [constructor|].
    destruct (G 0%nat n' l1 eq_refl eq_refl) as [E1 E2]. constructor.
    + destruct (elem_ex l1 q') as [j' Hj']; [lia|]. rewrite (E2 q' j' Hj') in Hj'. exact Hj'.
    + apply IH'; [now injection L'|]. intros m. exact (G (S m)).
  - constructor.
    + destruct (H 0%nat n l0 ltac:(lia) eq_refl eq_refl) as [E1 E2]. destruct (elem_ex l0 q) as [j' Hj']; [lia|]. rewrite (E2 q j' Hj') in Hj'. exact Hj'.
    + apply (IH inds p' i l k j); auto. intros m n' l' Hm H1 H2. apply (H (S m) n' l'); [lia | exact H1 | exact H2].
Qed.

(** C64: after rotatelon the longitudes run through one turn from the origin, in increasing order; every element is found at its own meridian, and no element is lost. *)
Theorem C64_rotate : forall V N env (junk : list Z -> V) cls nm named cn (x : var axis V) D origin i c,
  env_ok env -> holds env x D -> first_axis N (var_axes x) "lon" i -> nth_error (var_axes x) i = Some (Coord c) -> c_kind c = Plain -> c_class c = cls ->
  (forall vals, alias N (lon_axis env cls nm vals) "lon" = true) -> distinct_meridians origin (c_vals c) ->
  exists y D' lon moved, rotatelon N env junk cls nm named cn x origin false = Some y /\ holds env y D' /\ var_axes y = set_at (var_axes x) i lon /\
    index_permutation (List.length (c_vals c)) moved /\ List.length (axis_vals lon) = List.length (c_vals c) /\
    (forall k j u l, elem moved k j -> elem (axis_vals lon) k u -> elem (c_vals c) j l -> same_meridian u l /\ in_turn origin u) /\
    (forall k k' u u', elem (axis_vals lon) k u -> elem (axis_vals lon) k' u' -> k < k' -> (u < u')%Q) /\
    (forall p k j, position (var_shape x) p -> elem moved k j -> D' (set_at p i k) = D (set_at p i j)).
Proof.
  intros V N env junk cls nm named cn x D origin i c Henv [Hg Hgood] Hf Hc K C Hal Hd. pose proof (proj2 (which_axis_spec N (var_axes x) "lon" i) Hf) as W.
  set (vals := map (turned origin) (c_vals c)). set (mid := set_at (var_axes x) i (lon_axis env cls nm vals)).
  pose proof (set_separate env cls nm (var_axes x) i c vals (proj2 Hg) Hc K C) as Sm. fold mid in Sm.
  destruct (replace_statement env junk x D mid Hg Sm) as [R _]. destruct R as (z & Ez & Az & Gz); [apply (set_lengths env cls nm _ _ c); [exact Hc | apply map_length]|].
  pose proof (turned_separated origin (c_vals c) Hd) as Sv. fold vals in Sv.
  assert (Hz : holds env z D) by (split; [exact Gz|]; rewrite Az; now apply set_good).
  pose proof (which_set N env cls nm (var_axes x) i vals Hf (Hal vals)) as Wz. fold mid in Wz.
  assert (Lm : List.length mid = List.length (var_axes x)) by apply length_set_at.
  assert (Li : (i < List.length (var_axes x))%nat) by (apply nth_error_Some; congruence).
  set (order := map (fun j => if Nat.eqb j i then Some false else None) (seq 0 (List.length mid))).
  assert (Lo : List.length order = List.length (var_axes z)) by (unfold order; rewrite map_length, seq_length, Az; reflexivity).
  destruct (sorted_statement env junk z D order Henv Hz Lo) as (inds & D' & Hy & Sy & Pk & Ls & Ly & Ax).
  assert (Nm : nth_error mid i = Some (lon_axis env cls nm vals)) by (unfold mid; rewrite nth_error_set, Nat.eqb_refl; apply Nat.ltb_lt in Li; now rewrite Li).
  set (lon := axis_take env (lon_axis env cls nm vals) (axis_argsort env (lon_axis env cls nm vals) false)).
  assert (Ay : var_axes (sort_var env junk z order) = set_at mid i lon).
  { unfold sort_var, wrapped. cbn [var_axes]. rewrite Az. unfold order. pose proof (sort_axes env mid i 0) as Q. cbn [Nat.add] in Q. rewrite Q, Nm. reflexivity. }
  destruct (nth_error inds i) as [moved|] eqn:Em; [|apply nth_error_None in Em; rewrite Ls, Az, Lm in Em; lia].
  assert (No : forall j, (j < List.length mid)%nat -> nth_error order j = Some (if Nat.eqb j i then Some false else None)).
  { intros j Hj. unfold order. rewrite nth_error_map. rewrite (nth_error_nth' _ 0%nat) by now rewrite seq_length. rewrite seq_nth by exact Hj. reflexivity. }
  assert (Nl : nth_error (var_axes (sort_var env junk z order)) i = Some lon) by (rewrite Ay, nth_error_set, Nat.eqb_refl, Lm; apply Nat.ltb_lt in Li; now rewrite Li).
  rewrite Az in Ax. assert (Ni : nth_error order i = Some (Some false)) by (rewrite No by (rewrite Lm; exact Li); now rewrite Nat.eqb_refl).
  destruct (Ax i _ lon (Some false) moved Nm Nl Ni Em) as (Sl & Pm & Or). cbn [axis_len lon_axis c_vals] in Pm.
  assert (Lv : List.length vals = List.length (c_vals c)) by apply map_length.
  assert (Pm' : index_permutation (List.length (c_vals c)) moved) by (unfold zlen in Pm; rewrite Nat2Z.id in Pm; unfold vals in Pm; rewrite map_length in Pm; exact Pm).
  assert (Rg : in_range (zlen vals) moved).
  { unfold in_range. apply Forall_forall. intros k Hk. apply (Permutation_in _ Pm') in Hk. apply in_map_iff in Hk as (j & <- & Hj). apply in_seq in Hj. unfold zlen. rewrite Lv. lia. }
  assert (Vl : axis_vals lon = pick 0%Q vals moved).
  { clear -Sl. destruct lon as [d|d|d]; cbn in Sl; [|destruct Sl|destruct Sl]. cbn. tauto. }
  exists (sort_var env junk z order), D', lon, moved. split.
  { unfold rotatelon. rewrite W. unfold replace_lon. rewrite W. cbn [bind]. rewrite Hc. cbn [bind]. change (axis_vals (Coord c)) with (c_vals c). fold vals mid. rewrite Ez. cbn [bind]. unfold sort_lon. rewrite Az, Wz. reflexivity. }
  split; [exact Hy|]. split; [rewrite Ay; unfold mid; clear; generalize (var_axes x); intros l; revert i; induction l; intros [|i]; cbn; f_equal; auto|].
  split; [exact Pm'|]. split; [rewrite Vl; unfold pick; rewrite map_length; rewrite (Permutation_length Pm'), map_length, seq_length; reflexivity|].
  split.
  { intros k j u l Hk Hu Hl. rewrite Vl in Hu. apply (elem_pick 0%Q vals moved k u Rg) in Hu as (j' & Hj' & Hu). rewrite (elem_fun _ _ _ _ Hj' Hk) in Hu. unfold vals in Hu. apply elem_map in Hu as (l' & Hl' & ->). rewrite (elem_fun _ _ _ _ Hl' Hl). apply turned_spec. }
  split.
  { intros k k' u u' Hu Hu' Hk. rewrite Vl in Hu, Hu'. apply (elem_pick 0%Q vals moved k u Rg) in Hu as (j & Hj & Hu). apply (elem_pick 0%Q vals moved k' u' Rg) in Hu' as (j' & Hj' & Hu').
    pose proof (Or k k' j j' u u' Hj Hj' Hk Hu Hu') as Le. cbn in Le. apply Qle_lteq in Le as [Lt|Eq]; [exact Lt|]. exfalso.
    assert (Ne : j <> j').
    { intros <-. assert (Nd : NoDup moved) by (apply (Permutation_NoDup (Permutation_sym Pm')); apply FinFun.Injective_map_NoDup; [intros ? ?; apply Nat2Z.inj | apply seq_NoDup]).
      destruct Hj as [Hk0 Hj], Hj' as [Hk0' Hj']. rewrite NoDup_nth_error in Nd. assert (Z.to_nat k = Z.to_nat k') by (apply Nd; [apply nth_error_Some; congruence | congruence]). lia. }
    apply (Sv j j' u u' Hu Hu' Ne). unfold np_close. assert (Z0 : (Qabs (u - u') == 0)%Q) by (rewrite Eq; setoid_replace (u' - u')%Q with 0%Q by ring; reflexivity). rewrite Z0.
    pose proof (Qabs_nonneg u'). lra. }
  intros p k j Hp He. apply Pk.
  assert (Shp : var_shape x = map axis_len mid) by (unfold var_shape, mid; symmetry; apply (set_lengths env cls nm _ _ c); [exact Hc | apply map_length]).
  apply (picks_one (var_shape x) inds p i moved k j); auto.
  - rewrite Ls, Az, Lm. unfold var_shape. now rewrite map_length.
  - intros m n l Hm Hn Hl. rewrite Shp in Hn. rewrite nth_error_map in Hn. destruct (nth_error mid m) as [a|] eqn:Ea; [|discriminate]. cbn in Hn. injection Hn as <-.
    assert (Lm' : (m < List.length mid)%nat) by (apply nth_error_Some; congruence).
    assert (Om : nth_error order m = Some None) by (rewrite No by exact Lm'; destruct (Nat.eqb_spec m i); [contradiction | reflexivity]).
    assert (Bm : nth_error (var_axes (sort_var env junk z order)) m = Some a) by (rewrite Ay, nth_error_set; destruct (Nat.eqb_spec i m); [congruence | exact Ea]).
    destruct (Ax m a a None l Ea Bm Om Hl) as (_ & Pl & Id). split; [|exact Id]. unfold zlen. rewrite (Permutation_length Pl), map_length, seq_length. apply Z2Nat.id.
    destruct a; cbn; unfold zlen; lia.
Qed.
Print Assumptions C64_rotate.

(** the hypotheses are met by a variable with longitudes 0, 5, 7, rotated to start at 6 *)
Example C64_rotate_example :
  env_ok env0 /\ holds env0 blocks table /\ first_axis names (var_axes blocks) "lon" 1 /\ nth_error (var_axes blocks) 1 = Some lon3 /\
  (forall vals, alias names (lon_axis env0 [2] 2 vals) "lon" = true) /\ distinct_meridians 6 [0; 5; 7]%Q /\
  option_map (fun y => match nth_error (var_axes y) 1 with Some a => map Qred (axis_vals a) | None => [] end) (rotatelon names env0 (fun _ => 0) [2] 2 [9] 9 blocks 6 false) = Some [7; 360; 365]%Q /\
  look (rotatelon names env0 (fun _ => 0) [2] 2 [9] 9 blocks 6 false) [[1; 0]; [1; 1]; [1; 2]] = Some ([2; 3], [12; 10; 11]).
Proof.
  split; [exact env0_ok|]. split; [apply blocks_holds|]. split; [apply which_axis_spec; reflexivity|]. split; [reflexivity|]. split; [reflexivity|]. split; [|split; vm_compute; reflexivity].
  intros j j' x x' u u' Hx Hx' Hne [n Hn] [n' Hn'] [U1 U2] [U1' U2'].
  assert (G : forall (l : Q), In l [0; 5; 7]%Q -> forall v m, (v == l + inject_Z (360 * m))%Q -> (6 <= v)%Q -> (v < 6 + 360)%Q -> (l == 0 /\ v == 360 \/ l == 5 /\ v == 365 \/ l == 7 /\ v == 7)%Q).
  { intros l Hl v m Hv A1 A2. rewrite Hv in A1, A2 |- *. rewrite inject_Z_mult in A1, A2 |- *. change (inject_Z 360) with 360%Q in *.
    assert (B : (m = 0 \/ m = 1 \/ m <= -1 \/ 2 <= m)%Z) by lia.
    destruct B as [-> |[-> |[B|B]]]; cbn [In] in Hl.
    - change (inject_Z 0) with 0%Q in *. destruct Hl as [<-|[<-|[<-|[]]]]; lra.
    - change (inject_Z 1) with 1%Q in *. destruct Hl as [<-|[<-|[<-|[]]]]; lra.
    - rewrite Zle_Qle in B. change (inject_Z (-1)) with (-1)%Q in B. destruct Hl as [<-|[<-|[<-|[]]]]; lra.
    - rewrite Zle_Qle in B. change (inject_Z 2) with 2%Q in B. destruct Hl as [<-|[<-|[<-|[]]]]; lra. }
  assert (I1 : In x [0; 5; 7]%Q) by (destruct Hx as [_ Hx]; now apply nth_error_In in Hx).
  assert (I2 : In x' [0; 5; 7]%Q) by (destruct Hx' as [_ Hx']; now apply nth_error_In in Hx').
  assert (Nx : ~ (x == x')%Q).
  { intros E. apply Hne. destruct Hx as [P1 Hx], Hx' as [P2 Hx']. destruct (Z.to_nat j) as [|[|[|?]]] eqn:Ej, (Z.to_nat j') as [|[|[|?]]] eqn:Ej'; cbn in Hx, Hx'; try lia;
    try (destruct n0; discriminate); try (destruct n1; discriminate); injection Hx as <-; injection Hx' as <-; discriminate E. }
  pose proof (G x I1 u n Hn U1 U2) as K. pose proof (G x' I2 u' n' Hn' U1' U2') as K'. clear -Nx K K'. intros Cl. unfold np_close in Cl.
  destruct K as [[A B]|[[A B]|[A B]]], K' as [[A' B']|[[A' B']|[A' B']]]; try (apply Nx; rewrite A, A'; reflexivity); rewrite B, B' in Cl; vm_compute in Cl; apply Cl; reflexivity.
Qed.

(** *** duplicate=True *)
Definition lon4 : axis := Coord (MkCoord Plain [2] 2 [0; 90; 180; 270]%Q [] [] (1 # 100000)).
Definition quarters : var axis Z := Var [lon4] (Values (Arr [4] (fun p => nth 0 p 0))).
Lemma quarters_holds : holds env0 quarters (fun p => nth 0 p 0).
Proof.
  assert (S : separated [0; 90; 180; 270]%Q).
  { assert (H : forall i j x y, (i < j)%nat -> nth_error [0; 90; 180; 270]%Q i = Some x -> nth_error [0; 90; 180; 270]%Q j = Some y -> ~ np_close x y /\ ~ np_close y x).
    { intros [|[|[|[|i]]]] [|[|[|[|j]]]] x y Hij Hx Hy; try lia; cbn in Hx, Hy; try discriminate; try (destruct i; discriminate); try (destruct j; discriminate);
      injection Hx as <-; injection Hy as <-; split; cbv; intros K; now apply K. }
    intros i j x y [Hi0 Hi] [Hj0 Hj] Hne. destruct (Z_lt_le_dec i j) as [Hlt|Hlt].
    - eapply (proj1 (H (Z.to_nat i) (Z.to_nat j) x y ltac:(lia) Hi Hj)).
    - eapply (proj2 (H (Z.to_nat j) (Z.to_nat i) y x ltac:(lia) Hj Hi)). }
  split; [split|].
  - split; reflexivity.
  - intros [|i] [|j] a b Ha Hb Hne; cbn in Ha, Hb; try congruence; try (destruct i; discriminate); destruct j; discriminate.
  - repeat constructor; cbn; try discriminate. exact S.
Qed.
Example duplicate_zero : look (rotatelon names env0 (fun _ => 0) [2] 2 [9] 9 quarters 0 true) [[0]; [1]; [2]; [3]; [4]] = Some ([5], [0; 1; 2; 3; 0]).
Proof. vm_compute. reflexivity. Qed.
(** C64, duplicate=True: the documentation promises that the value at the origin is repeated at the end of the axis; the
    code repeats the value at longitude 0, so the element at longitude 180 is not the one at longitude -180 *)
Theorem C64_duplicate_refuted :
  ~ forall (x : var axis Z) origin y lon r, (exists D, holds env0 x D) ->
      rotatelon names env0 (fun _ => 0) [2] 2 [9] 9 x origin true = Some y -> var_axes y = [lon] -> var_get env0 (fun _ => 0) y = Some r ->
      forall k k' u u', elem (axis_vals lon) k u -> elem (axis_vals lon) k' u' -> same_meridian u u' -> val r [k] = val r [k'].
Proof.
  intros H.
  assert (E : match rotatelon names env0 (fun _ => 0) [2] 2 [9] 9 quarters (-180) true with Some y => match var_axes y with [a] => map Qred (axis_vals a) | _ => [] end | None => [] end = [-180; -90; 0; 90; 180]%Q) by (vm_compute; reflexivity).
  assert (L : look (rotatelon names env0 (fun _ => 0) [2] 2 [9] 9 quarters (-180) true) [[0]; [1]; [2]; [3]; [4]] = Some ([5], [2; 3; 0; 1; 0])) by (vm_compute; reflexivity).
  pose proof (H quarters (-180)%Q) as K. destruct (rotatelon names env0 (fun _ => 0) [2] 2 [9] 9 quarters (-180) true) as [y|]; [|discriminate L].
  cbn [look] in L. destruct (var_axes y) as [|lon [|]] eqn:Ay; try discriminate E. destruct (var_get env0 (fun _ => 0) y) as [r|] eqn:Gr; [|discriminate L]. cbn [option_map map] in L.
  specialize (K y lon r (ex_intro _ _ quarters_holds) eq_refl Ay Gr 0 4). injection L as _ V0 _ _ _ V4.
  destruct (axis_vals lon) as [|u0 [|u1 [|u2 [|u3 [|u4 [|]]]]]]; try discriminate E. cbn [map] in E.
  assert (E0 : Qred u0 = (-180)%Q) by congruence. assert (E4 : Qred u4 = 180%Q) by congruence. clear E.
  assert (F : val r [0] = val r [4]).
  { apply (K u0 u4); [split; [lia|reflexivity] | split; [lia|reflexivity] |]. exists (-1). rewrite <- (Qred_correct u0), <- (Qred_correct u4), E0, E4. reflexivity. }
  rewrite V0, V4 in F. discriminate F.
Qed.
Print Assumptions C64_duplicate_refuted.
(** close longitudes: the value repeated is the one at longitude 0 *)
Definition close_lons : var axis Z := Var [Coord (MkCoord Plain [2] 2 [2; 0; 1]%Q [] [] (1 # 100000))] (Values (Arr [3] (fun p => nth 0 p 0))).
Example duplicate_close : look (rotatelon names env0 (fun _ => 0) [2] 2 [9] 9 close_lons 0 true) [[0]; [1]; [2]; [3]] = Some ([4], [1; 2; 0; 1]).
Proof. vm_compute. reflexivity. Qed.
(** a variable without longitudes is returned as it is *)
Theorem C64_no_longitude : forall V N env (junk : list Z -> V) cls nm named cn (x : var axis V) origin duplicate,
  (forall a, In a (var_axes x) -> alias N a "lon" = false) -> rotatelon N env junk cls nm named cn x origin duplicate = Some x.
Proof.
  intros V N env junk cls nm named cn x origin duplicate H. unfold rotatelon. destruct (which_axis N (var_axes x) "lon") as [j|] eqn:E; [|reflexivity].
  apply which_axis_spec in E as [(a & Ha & E) _]. rewrite (H a (nth_error_In _ _ Ha)) in E. discriminate.
Qed.
Print Assumptions C64_no_longitude.
Example C64_no_longitude_example : forall a, In a (var_axes (Var [lat2] (Values (Arr [2] (fun p => nth 0 p 0))))) -> alias names a "lon" = false.
Proof. intros a [<-|[]]. reflexivity. Qed.
