(** C71: variables that are spread over several files; C32: sorting of computed variables. *)
From Coq Require Import ZArith List Bool Lia QArith_base Permutation FinFun.
From Verif Require Import CalModel CalSpec TimeSearchModel TimeSearchSpec SortSpec IndexModel IndexSpec IndexProofs ArrModel ArrProofs ViewModel ViewSpec ViewProofs AxisModel AxisSpec AxisProofs
  VarOpsModel VarOpsSpec VarOpsProofs VarOpsLemmas ReduceModel ReduceSpec RespondProofs UfuncSpec NumModel StencilModel StencilSpec ConcatModel ConcatSpec ConcatAxis ConcatVar
  ViewProps EnvExample AxisProps ReduceProps StencilProps ConcatProps MultiFileProps SortAny OpenAllModel OpenAllSpec OpenAllProofs.
Import ListNotations.
Open Scope Z_scope.

(** sorted() of any variable, also of one that is computed when it is read *)
Theorem C32_computed : forall {V} env (junk : list Z -> V) (x : var axis V) D order,
  env_ok env -> responds env x D -> Forall good_axis (var_axes x) -> length order = length (var_axes x) ->
  let y := sort_var env junk x order in
  exists inds D', computes env y D' /\ length inds = length (var_axes x) /\ length (var_axes y) = length (var_axes x) /\
    (forall p q, picks inds p q -> D' p = D q) /\
    forall i a b o l, nth_error (var_axes x) i = Some a -> nth_error (var_axes y) i = Some b ->
      nth_error order i = Some o -> nth_error inds i = Some l ->
      sliced a l b /\ index_permutation (Z.to_nat (axis_len a)) l /\
      match o with
      | None => forall k j, elem l k j -> j = k
      | Some reverse => forall k k' j j' v v', elem l k j -> elem l k' j' -> k < k' ->
          elem (axis_vals a) j v -> elem (axis_vals a) j' v' -> if reverse then (v' <= v)%Q else (v <= v')%Q
      end.
Proof.
  intros V env junk x D order Henv Hx Hg Ho y. pose proof (sort_responds env Henv junk x D order Hx Hg Ho) as HS.
  destruct (sort_indices_spec env Henv (var_axes x) order Hg Ho) as (S1 & S2 & S3 & S4). set (inds := sort_indices env (var_axes x) order) in *.
  exists inds, (fun p => D (gather inds p)). split; [now apply computed|].
  assert (length inds = length (var_axes x)) as Hl by (unfold inds, sort_indices; rewrite map_length, combine_length; lia). split; [exact Hl|].
  assert (var_axes y = map (fun '(a, ind) => axis_take env a ind) (combine (var_axes x) inds)) as Hy by (unfold y, sort_var; cbn [var_axes wrapped]; exact S4).
  split; [rewrite Hy, map_length, combine_length; lia|]. split; [intros p q Hpq; apply picks_position in Hpq as [_ ->]; reflexivity|].
  intros i a b o l Ha Hb Hoi Hli. pose proof (proj1 (Forall_forall _ _) Hg a (nth_error_In _ _ Ha)) as G.
  rewrite Hy, nth_error_map, nth_error_combine, Ha, Hli in Hb. injection Hb as <-.
  split; [apply (sliced_self env Henv a l G); exact (Forall2_nth_error _ _ _ _ _ _ S1 Ha Hli)|].
  unfold inds, sort_indices in Hli. rewrite nth_error_map, nth_error_combine, Ha, Hoi in Hli. cbn in Hli. injection Hli as <-. destruct o as [r|]; cbn [sort_index].
  - split; [apply (argsort_perm env Henv a r G)|]. intros k k' j j' v v'. apply argsort_sorted. exact Henv.
  - split; [|intros k j H; now apply elem_arange01 in H]. unfold index_permutation.
    rewrite (is_arange (map Z.of_nat (seq 0 (Z.to_nat (axis_len a)))) (axis_len a)); [reflexivity|apply axis_len_nonneg| |].
    + rewrite IndexProofs.zlen_map. unfold zlen. rewrite seq_length. pose proof (axis_len_nonneg a). lia.
    + intros k j H. apply IndexProofs.elem_map in H as (n & [Hn0 Hn] & ->). rewrite nth_error_seq in Hn.
      destruct (Nat.ltb_spec (Z.to_nat k) (Z.to_nat (axis_len a))); [|discriminate]. injection Hn as <-. lia.
Qed.
Print Assumptions C32_computed.

(** openall(files): the coordinates of the result are those of all files, in order, and at each of them stands what the file with this
    coordinate holds there.  The remaining axes are those of the first file. *)
Theorem C71_files : forall V env (junk : list Z -> V) named concat_name d reverse order (y0 : part V) rest, env_ok env ->
  fit_together env d (y0 :: rest) -> sorts_along d reverse (y0 :: rest) order ->
  exists z D b, open_all env junk named concat_name true order (map p_var (y0 :: rest)) = Some z /\ computes env z D /\
    length (var_axes z) = length (var_axes (p_var y0)) /\ nth_error (var_axes z) d = Some b /\
    (forall j, j <> d -> nth_error (var_axes z) j = nth_error (var_axes (p_var y0)) j) /\
    Permutation (axis_vals b) (coordinates (y0 :: rest)) /\ in_order reverse (axis_vals b) /\
    (forall w k i v v' e, In w (y0 :: rest) -> elem (axis_vals (p_axis w)) k v -> elem (axis_vals b) i v' -> (v == v')%Q -> elem (elements (p_axis w)) k e -> elem (elements b) i e) /\
    forall w k v v' p, In w (y0 :: rest) -> position (var_shape z) p -> elem (axis_vals (p_axis w)) k v -> elem (axis_vals b) (nth d p 0) v' -> (v == v')%Q ->
      D p = p_data w (set_at p d k).
Proof.
  intros V env junk named cn d reverse order y0 rest Henv H1 H2.
  destruct (open_parts env Henv junk named cn d reverse order y0 rest H1 H2) as (z & D & b & K1 & K2 & K3 & K4 & Kv & Ke & K5 & K6 & K7 & Kel & K8).
  exists z, D, b. split; [exact K1|]. split; [now apply computed|]. repeat (split; [assumption|]). exact K8.
Qed.
Print Assumptions C71_files.

Lemma separated_perm l l' : Permutation l l' -> separated l -> separated l'.
Proof.
  intros HP Hs i j x y [Hi Hx] [Hj Hy] Hne. apply Permutation_nth_error in HP as (_ & f & Hf & Hn). rewrite Hn in Hx, Hy.
  apply (Hs (Z.of_nat (f (Z.to_nat i))) (Z.of_nat (f (Z.to_nat j))) x y); [split; [lia|now rewrite Nat2Z.id]|split; [lia|now rewrite Nat2Z.id]|].
  intros E. apply Nat2Z.inj in E. apply Hf in E. lia.
Qed.
Lemma concat_perm {A B} (f : A -> list B) l l' : Permutation l l' -> Permutation (List.concat (map f l)) (List.concat (map f l')).
Proof.
  intros H. induction H as [|x l l' _ IH|x y l|l l' l'' _ IH1 _ IH2]; cbn.
  - constructor.
  - now apply Permutation_app_head.
  - rewrite !app_assoc. apply Permutation_app_tail. apply Permutation_app_comm.
  - eapply Permutation_trans; eassumption.
Qed.
Lemma differ_perm l l' : Permutation l l' -> values_differ l -> values_differ l'.
Proof.
  intros HP Hs i j x y [Hi Hx] [Hj Hy] E. apply Permutation_nth_error in HP as (_ & f & Hf & Hn). rewrite Hn in Hx, Hy.
  assert (Z.of_nat (f (Z.to_nat i)) = Z.of_nat (f (Z.to_nat j))) as K; [|apply Nat2Z.inj in K; apply Hf in K; lia].
  apply (Hs _ _ x y); [split; [lia|now rewrite Nat2Z.id]|split; [lia|now rewrite Nat2Z.id]|exact E].
Qed.
Lemma apart_perm l l' : Permutation l l' -> told_apart l -> told_apart l'.
Proof.
  intros HP [[Hc Hs]|(ts & s & -> & H1 & H2 & H3 & H4)].
  - left. split; [intros a Ha; apply Hc; eapply Permutation_in; [symmetry; exact HP|exact Ha]|]. eapply separated_perm; [|exact Hs]. now apply concat_perm.
  - right. symmetry in HP. apply Permutation_map_inv in HP as (ts' & -> & HP). exists ts', s. split; [reflexivity|].
    split; [apply Forall_forall; intros t Ht; rewrite Forall_forall in H1; apply H1; eapply Permutation_in; [symmetry; exact HP|exact Ht]|]. split; [exact H2|].
    split; [eapply Permutation_NoDup; [|exact H3]|eapply differ_perm; [|exact H4]]; now apply concat_perm.
Qed.
Lemma fit_perm {V} env d (ys ys' : list (part V)) : Permutation ys ys' -> fit_together env d ys -> fit_together env d ys'.
Proof.
  intros HP (H1 & H2 & H3). assert (forall y, In y ys' -> In y ys) as Hin by (intros y Hy; eapply Permutation_in; [symmetry; exact HP|exact Hy]).
  split; [intros y Hy; now apply H1, Hin|]. split; [intros y w Hy Hw; apply H2; now apply Hin|]. eapply apart_perm; [|exact H3]. now apply Permutation_map.
Qed.
Lemma order_tail reverse x l : in_order reverse (x :: l) -> in_order reverse l /\ forall y, In y l -> if reverse : bool then (y < x)%Q else (x < y)%Q.
Proof.
  intros H. split.
  - intros i k v w [Hi Hv] [Hk Hw] Hlt. apply (H (i + 1) (k + 1)); [split; [lia|]|split; [lia|]|lia].
    + replace (Z.to_nat (i + 1)) with (S (Z.to_nat i)) by lia. exact Hv.
    + replace (Z.to_nat (k + 1)) with (S (Z.to_nat k)) by lia. exact Hw.
  - intros y Hy. apply In_elem in Hy as (k & Hk & Hw). apply (H 0 (k + 1)); [split; [lia|reflexivity]|split; [lia|]|lia].
    replace (Z.to_nat (k + 1)) with (S (Z.to_nat k)) by lia. exact Hw.
Qed.
Lemma order_unique reverse l : forall l', Permutation l l' -> in_order reverse l -> in_order reverse l' -> l = l'.
Proof.
  induction l as [|x l IH]; intros l' HP H H'; [now apply Permutation_nil in HP|].
  destruct l' as [|x' l']; [symmetry in HP; now apply Permutation_nil in HP|].
  destruct (order_tail _ _ _ H) as [Ht Hx], (order_tail _ _ _ H') as [Ht' Hx'].
  assert (x = x') as <-.
  { destruct (Permutation_in x HP (or_introl eq_refl)) as [E|K]; [congruence|]. destruct (Permutation_in x' (Permutation_sym HP) (or_introl eq_refl)) as [E|K']; [congruence|].
    exfalso. specialize (Hx x' K'). specialize (Hx' x K). destruct reverse; apply (Qlt_irrefl x); eapply Qlt_trans; eassumption. }
  f_equal. apply IH; auto. eapply Permutation_cons_inv; exact HP.
Qed.

(** openall(files) does not depend on the order of the files: neither the coordinates nor the data *)
Theorem C71_order : forall V env (junk : list Z -> V) named concat_name d reverse order (ys ys' : list (part V)), env_ok env ->
  ys <> [] -> Permutation ys ys' -> fit_together env d ys -> sorts_along d reverse ys order ->
  exists z z' D D' b b', open_all env junk named concat_name true order (map p_var ys) = Some z /\ open_all env junk named concat_name true order (map p_var ys') = Some z' /\
    computes env z D /\ computes env z' D' /\ var_shape z = var_shape z' /\
    nth_error (var_axes z) d = Some b /\ nth_error (var_axes z') d = Some b' /\ axis_vals b = axis_vals b' /\ elements b = elements b' /\
    (forall j a a', j <> d -> nth_error (var_axes z) j = Some a -> nth_error (var_axes z') j = Some a' -> axis_same a' a = true) /\
    forall p, position (var_shape z) p -> D p = D' p.
Proof.
  intros V env junk named cn d reverse order ys ys' Henv Hne HP Hfit Hso.
  destruct ys as [|y0 rest]; [congruence|]. destruct ys' as [|y1 rest']; [symmetry in HP; apply Permutation_nil in HP; discriminate|].
  assert (In y1 (y0 :: rest)) as Hin1 by (eapply Permutation_in; [symmetry; exact HP|now left]).
  assert (sorts_along d reverse (y1 :: rest') order) as Hso'.
  { destruct Hso as [S1 S2]. split; [exact S1|]. intros y Hy. apply S2. eapply Permutation_in; [symmetry; exact HP|exact Hy]. }
  destruct (open_parts env Henv junk named cn d reverse order y0 rest Hfit Hso) as (z & D & b & K1 & K2 & K3 & K4 & Kv & Ke & K5 & K6 & K7 & Kel & K8).
  destruct (open_parts env Henv junk named cn d reverse order y1 rest' (fit_perm _ _ _ _ HP Hfit) Hso') as (z' & D' & b' & L1 & L2 & L3 & L4 & Lv & Le & L5 & L6 & L7 & Lel & L8).
  assert (axis_vals b = axis_vals b') as Evals.
  { apply (order_unique reverse); [|exact K7|exact L7]. eapply Permutation_trans; [exact K6|]. eapply Permutation_trans; [apply coordinates_perm; exact HP|]. symmetry. exact L6. }
  destruct Hfit as (F1 & F2 & _). destruct (F2 y0 y1 (or_introl eq_refl) Hin1) as (M & _).
  assert (forall j a a', j <> d -> nth_error (var_axes z) j = Some a -> nth_error (var_axes z') j = Some a' -> axis_same a' a = true) as Hsame.
  { intros j a a' Hj Ha Ha'. rewrite K5 in Ha by exact Hj. rewrite L5 in Ha' by exact Hj. destruct M as (_ & _ & M & _). exact (M j a a' Hj Ha Ha'). }
  assert (length (var_axes z) = length (var_axes z')) as Hlen by (destruct M as (M & _); congruence).
  assert (var_shape z = var_shape z') as Hsh.
  { unfold var_shape. apply (List.nth_ext _ _ 0 0); [rewrite !map_length; exact Hlen|]. intros j Hj. rewrite map_length in Hj.
    destruct (nth_error (var_axes z) j) as [a|] eqn:Ea; [|apply nth_error_None in Ea; lia]. destruct (nth_error (var_axes z') j) as [a'|] eqn:Ea'; [|apply nth_error_None in Ea'; lia].
    rewrite (nth_error_nth (map axis_len (var_axes z)) j 0 (x := axis_len a)) by (rewrite nth_error_map, Ea; reflexivity).
    rewrite (nth_error_nth (map axis_len (var_axes z')) j 0 (x := axis_len a')) by (rewrite nth_error_map, Ea'; reflexivity).
    destruct (Nat.eq_dec j d) as [->|Hj']; [|symmetry; apply same_len; now apply (Hsame j)].
    rewrite Ea in K4. injection K4 as ->. rewrite Ea' in L4. injection L4 as ->. rewrite <- Kv, <- Lv. now rewrite Evals. }
  assert (forall i v, elem (axis_vals b) i v -> exists w k, In w (y0 :: rest) /\ In w (y1 :: rest') /\ elem (axis_vals (p_axis w)) k v) as Hfrom.
  { intros i v Hv. assert (In v (coordinates (y0 :: rest))) as Hvin by (eapply Permutation_in; [exact K6|eapply elem_In; exact Hv]).
    apply In_elem in Hvin as (u & Hu). destruct (coordinates_find _ _ _ Hu) as (before & w & after & k & Ew & _ & Hk).
    assert (In w (y0 :: rest)) as Hw by (rewrite Ew; apply in_or_app; right; now left). exists w, k. split; [exact Hw|]. split; [eapply Permutation_in; [exact HP|exact Hw]|exact Hk]. }
  assert (forall p, position (var_shape z) p -> exists i, nth_error p d = Some i /\ 0 <= i < zlen (axis_vals b)) as Hpos.
  { intros p Hp. assert (nth_error (var_shape z) d = Some (axis_len b)) as En by (unfold var_shape; rewrite nth_error_map, K4; reflexivity).
    destruct (nth_error p d) as [i|] eqn:Ei.
    - exists i. split; [reflexivity|]. rewrite Kv. exact (Forall2_nth_error _ _ _ _ _ _ Hp En Ei).
    - exfalso. apply nth_error_None in Ei. pose proof (Forall2_len _ _ _ Hp) as Hl. assert (d < length (var_shape z))%nat by (apply nth_error_Some; congruence). lia. }
  assert (forall y, In y (y0 :: rest) -> zlen (elements (p_axis y)) = zlen (axis_vals (p_axis y))) as Hpl.
  { intros y Hy. destruct (F1 y Hy) as (_ & _ & [Gp _] & _). rewrite (elements_len _ Gp). symmetry. now apply good_len. }
  assert (elements b = elements b') as Helems.
  { assert (zlen (axis_vals b) = zlen (axis_vals b')) as Ez by now rewrite Evals.
    apply list_ext. intros i e. assert (forall u u', elem (elements b) i u -> elem (elements b') i u' -> u = u') as Hone.
    { intros u u' Hu Hu'. pose proof (IndexProofs.elem_lt _ _ _ Hu) as Hi. rewrite Ke, <- Kv in Hi. destruct (elem_total (axis_vals b) i) as (v & Hv); [lia|].
      destruct (Hfrom i v Hv) as (w & k & Hw & Hw' & Hk). pose proof (IndexProofs.elem_lt _ _ _ Hk) as Hkl. rewrite <- (Hpl w Hw) in Hkl.
      destruct (elem_total (elements (p_axis w)) k Hkl) as (x & Hx).
      pose proof (Kel w k i v v x Hw Hk Hv (Qeq_refl v) Hx) as X1. pose proof Hv as Hv'. rewrite Evals in Hv'. pose proof (Lel w k i v v x Hw' Hk Hv' (Qeq_refl v) Hx) as X2.
      pose proof (IndexProofs.elem_fun _ _ _ _ Hu X1). pose proof (IndexProofs.elem_fun _ _ _ _ Hu' X2). congruence. }
    split; intros He; pose proof (IndexProofs.elem_lt _ _ _ He) as Hi.
    - destruct (elem_total (elements b') i) as (u & Hu); [rewrite Le, <- Lv, <- Ez, Kv, <- Ke; exact Hi|]. now rewrite (Hone e u He Hu).
    - destruct (elem_total (elements b) i) as (u & Hu); [rewrite Ke, <- Kv, Ez, Lv, <- Le; exact Hi|]. now rewrite <- (Hone u e Hu He). }
  exists z, z', D, D', b, b'. split; [exact K1|]. split; [exact L1|]. split; [now apply computed|]. split; [now apply computed|]. split; [exact Hsh|]. split; [exact K4|]. split; [exact L4|].
  split; [exact Evals|]. split; [exact Helems|]. split; [exact Hsame|]. intros p Hp. destruct (Hpos p Hp) as (i & Ei & Hi). destruct (elem_total (axis_vals b) i Hi) as (v & Hv).
  destruct (Hfrom i v Hv) as (w & k & Hw & Hw' & Hk).
  rewrite (K8 w k v v p Hw Hp Hk); [|rewrite (nth_error_nth _ _ _ Ei); exact Hv|apply Qeq_refl].
  rewrite (L8 w k v v p Hw'); [reflexivity|now rewrite <- Hsh|exact Hk|rewrite (nth_error_nth _ _ _ Ei), <- Evals; exact Hv|reflexivity].
Qed.
Print Assumptions C71_order.

(** *** examples *)
(** three files with the longitudes [20; 10], [40] and [30; 5]: put together in two different orders *)
Definition lon_of (v : list Q) : coord := MkCoord Plain [2; 5] 3 v [] [] (1 # 100000).
Definition cell (s : Z) (p : list Z) : num := num_of_Z (100 * s + 10 * nth 0 p 0 + nth 1 p 0).
Definition file (s : Z) (v : list Q) : part num := (source [lat2; Coord (lon_of v)] (cell s), Coord (lon_of v), cell s).
Definition files : list (part num) := [file 1 [20; 10]; file 2 [40]; file 3 [30; 5]]%Q.
Definition opened (ys : list (part num)) := open_all env0 zs named_class 99 true [None; Some false] (map p_var ys).
Definition lons (x : option (var axis num)) := option_map (fun x => match nth_error (var_axes x) 1 with Some (Coord c) => c_vals c | _ => [] end) x.
Definition wanted : list (list Z) := [[0; 0]; [0; 1]; [0; 2]; [0; 3]; [1; 4]].
Example C71_example :
  lons (opened files) = Some [5; 10; 20; 30; 40]%Q /\ lons (opened (rev files)) = Some [5; 10; 20; 30; 40]%Q /\
  show (opened files) [[0; 1]; [0; 1; 2; 3; 4]] wanted = Some ([2; 5], [Some 301; Some 101; Some 100; Some 300; Some 210]%Q) /\
  show (opened (rev files)) [[0; 1]; [0; 1; 2; 3; 4]] wanted = Some ([2; 5], [Some 301; Some 101; Some 100; Some 300; Some 210]%Q) /\
  show (opened files) [[1]; [1; 4]] [[0; 0]; [0; 1]] = Some ([1; 2], [Some 111; Some 210]%Q).
Proof. vm_compute. repeat split; reflexivity. Qed.

Fixpoint separatedb (l : list Q) : bool := match l with [] => true | x :: t => forallb (fun y => negb (close x y) && negb (close y x)) t && separatedb t end.
Lemma separatedb_spec l : separatedb l = true -> separated l.
Proof.
  induction l as [|x l IH]; intros H i j v w [Hi Hv] [Hj Hw] Hne K.
  - destruct (Z.to_nat i); discriminate.
  - cbn in H. apply andb_prop in H as [H1 H2]. rewrite forallb_forall in H1. apply close_spec in K.
    destruct (Z.to_nat i) as [|m] eqn:Ei, (Z.to_nat j) as [|n] eqn:Ej; cbn in Hv, Hw.
    + lia.
    + injection Hv as <-. specialize (H1 w (nth_error_In _ _ Hw)). rewrite K in H1. discriminate.
    + injection Hw as <-. specialize (H1 v (nth_error_In _ _ Hv)). rewrite K, andb_false_r in H1. discriminate.
    + apply (IH H2 (Z.of_nat m) (Z.of_nat n) v w); [split; [lia|now rewrite Nat2Z.id]|split; [lia|now rewrite Nat2Z.id]|lia|now apply close_spec].
Qed.
Lemma lon_tight v : separatedb v = true -> tight_axis (Coord (lon_of v)).
Proof. intros H. split; [|cbn; unfold Qle; cbn; lia]. split; [now apply separatedb_spec|]. split; [constructor|cbn; unfold Qle; cbn; lia]. Qed.
Lemma files_fit ys s : ys = map (fun sv => file (fst sv) (snd sv)) s -> separatedb (coordinates ys) = true ->
  Forall (fun sv => separatedb (snd sv) = true /\ snd sv <> []) s -> fit_together env0 1 ys.
Proof.
  intros -> Hs HF. rewrite Forall_forall in HF. split; [|split].
  3:{ left. split; [|rewrite map_map; now apply separatedb_spec]. intros a Ha. rewrite map_map in Ha. apply in_map_iff in Ha as ([n v] & <- & _). eexists. reflexivity. }
  - intros y Hy. apply in_map_iff in Hy as ([n v] & <- & Hin). destruct (HF _ Hin) as [H1 H2]. cbn [fst snd] in *. cbn [file p_var p_axis p_data fst snd].
    split; [|split; [reflexivity|split; [now apply lon_tight|split; [|exact H2]]]].
    + apply source_responds. intros i j a b Ha Hb Hne. axes2 i j; try congruence; injection Ha as <-; injection Hb as <-; cbn; reflexivity.
    + constructor; [pose proof field_good as K; now inversion K|]. constructor; [apply lon_tight; exact H1|constructor].
  - intros y w Hy Hw. apply in_map_iff in Hy as ([n v] & <- & _). apply in_map_iff in Hw as ([m u] & <- & _). cbn [fst snd file p_var p_axis].
    split; [|split; [cbn; exact Logic.I|]].
    + split; [reflexivity|]. split; [|split].
      * intros j a b Ha Hb. destruct j as [|[|j]]; cbn in Ha, Hb; try (destruct j; discriminate); injection Ha as <-; injection Hb as <-; reflexivity.
      * intros j a b Hj Ha Hb. destruct j as [|[|j]]; cbn in Ha, Hb; try (destruct j; discriminate); [injection Ha as <-; injection Hb as <-; vm_compute; reflexivity|congruence].
      * intros i j a b Hne Ha Hb. axes2 i j; try congruence; injection Ha as <-; injection Hb as <-; cbn; reflexivity.
    + intros j a b Hj Ha Hb. destruct j as [|[|j]]; cbn in Ha, Hb; try (destruct j; discriminate); [injection Ha as <-; injection Hb as <-; vm_compute; reflexivity|congruence].
Qed.
Example C71_used : fit_together env0 1 files /\ sorts_along 1 false files [None; Some false] /\ Permutation files (rev files) /\ files <> [].
Proof.
  split; [|split; [|split; [apply Permutation_rev|discriminate]]].
  - apply (files_fit _ [(1, [20; 10]%Q); (2, [40]%Q); (3, [30; 5]%Q)]); [reflexivity|vm_compute; reflexivity|]. repeat constructor; (vm_compute; reflexivity) || discriminate.
  - split; [reflexivity|]. intros y Hy. split; [cbn in Hy; intuition (subst; reflexivity)|].
    intros j a r Hne _ Hr. destruct j as [|[|j]]; [discriminate|congruence|destruct j; discriminate].
Qed.

(** two files with 3 January and with 1 and 2 January *)
Definition tfile (s : Z) (l : list Z) : part num := (source [Time (jan l); lat2] (cell s), Time (jan l), cell s).
Definition tfiles : list (part num) := [tfile 1 [3]; tfile 2 [1; 2]].
Definition topened (ys : list (part num)) := open_all env0 zs named_class 99 true [Some false; None] (map p_var ys).
Example C71_time_example :
  show (topened tfiles) [[0; 1; 2]; [0; 1]] [[0; 0]; [1; 0]; [2; 0]; [2; 1]] = Some ([3; 2], [Some 200; Some 210; Some 100; Some 101]%Q) /\
  show (topened (rev tfiles)) [[0; 1; 2]; [0; 1]] [[0; 0]; [1; 0]; [2; 0]; [2; 1]] = Some ([3; 2], [Some 200; Some 210; Some 100; Some 101]%Q) /\
  option_map (fun x => map (fun a => match a with Time t => map day (t_dates t) | _ => [] end) (var_axes x)) (topened tfiles) = Some [[1; 2; 3]; []].
Proof. vm_compute. repeat split; reflexivity. Qed.
Lemma tfile_axes2 l m i j a b : nth_error [Time (jan l); lat2] i = Some a -> nth_error [Time (jan m); lat2] j = Some b -> i <> j -> unrelated a b.
Proof. intros Ha Hb Hne. axes2 i j; try congruence; injection Ha as <-; injection Hb as <-; vm_compute; auto. Qed.
Example C71_time_used : fit_together env0 0 tfiles /\ sorts_along 0 false tfiles [Some false; None].
Proof.
  split.
  - assert (good_axis lat2) as Glat by (pose proof field_good as K; now inversion K).
    assert (forall y, In y tfiles -> exists s l, y = tfile s l /\ l <> [] /\ good_axis (Time (jan l))) as Hy.
    { intros y [<-|[<-|[]]]; [exists 1, [3]|exists 2, [1; 2]]; (split; [reflexivity|split; [discriminate|]]); [exact day3_good|exact day1_2_good]. }
    split; [|split].
    + intros y Hin. destruct (Hy y Hin) as (s & l & -> & Hne & G). cbn [tfile p_var p_axis p_data fst snd].
      split; [apply source_responds; intros i j a b Ha Hb Hij; exact (tfile_axes2 l l i j a b Ha Hb Hij)|]. split; [reflexivity|]. split; [split; [exact G|exact Logic.I]|]. split; [constructor; [exact G|constructor; [exact Glat|constructor]]|].
      destruct l; [congruence|discriminate].
    + intros y w Hin Hw. destruct (Hy y Hin) as (s & l & -> & _ & _). destruct (Hy w Hw) as (s' & l' & -> & _ & _). cbn [tfile p_var p_axis fst snd].
      split; [|split; [split; reflexivity|]].
      * split; [reflexivity|]. split; [|split].
        -- intros j a b Ha Hb. destruct j as [|[|j]]; cbn in Ha, Hb; try (destruct j; discriminate); injection Ha as <-; injection Hb as <-; reflexivity.
        -- intros j a b Hj Ha Hb. destruct j as [|[|j]]; cbn in Ha, Hb; try (destruct j; discriminate); [congruence|injection Ha as <-; injection Hb as <-; vm_compute; reflexivity].
        -- intros i j a b Hij Ha Hb. apply (tfile_axes2 l' l j i b a Hb Ha). congruence.
      * intros j a b Hj Ha Hb. destruct j as [|[|j]]; cbn in Ha, Hb; try (destruct j; discriminate); [congruence|injection Ha as <-; injection Hb as <-; vm_compute; reflexivity].
    + right. exists [jan [3]; jan [1; 2]], (jan [3]). split; [reflexivity|]. split; [repeat constructor|]. split; [reflexivity|]. split; [cbn; repeat constructor; cbn; intuition congruence|].
      apply separated_differ, separatedb_spec. vm_compute. reflexivity.
  - split; [reflexivity|]. intros y Hin. split; [destruct Hin as [<-|[<-|[]]]; reflexivity|]. intros j a r Hne _ Hr. destruct j as [|[|j]]; [congruence|discriminate|destruct j; discriminate].
Qed.
