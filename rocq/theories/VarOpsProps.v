(** C23, C24, C32: lazy slices, rearrangements, sorting *)
From Coq Require Import ZArith List Bool Lia QArith_base Permutation.
From Verif Require Import SortSpec TimeSearchSpec IndexModel IndexSpec ArrModel ViewModel ViewSpec IndexProofs ArrProofs AxisModel AxisSpec VarOpsModel VarOpsSpec
  VarOpsProofs VarOpsLemmas EnvExample ViewProps.
Import ListNotations.
Open Scope Z_scope.

(** shape and some elements of x.get() *)
Definition look (x : option (var axis Z)) (ps : list (list Z)) : option (list Z * list Z) :=
  match x with
  | Some x => option_map (fun r => (shape r, map (val r) ps)) (var_get env0 (fun _ => 0) x)
  | None => None
  end.

(** C23, one step: x.slice[...] has the axes and the data numpy's indexing selects.  [getable] means
    that every view of the result is answered accordingly (C22). *)
Theorem C23_slice : forall {V} env (junk : list Z -> V) (x : var axis V) D args sls inds,
  env_ok env -> holds env x D ->
  completed args (length (var_axes x)) sls ->
  Forall2 (fun '(n, s) l => index_of_slice s n l) (combine (var_shape x) sls) inds ->
  exists y D', slice_var env junk x args = Some y /\
    Forall2 (fun '(a, b) l => sliced a l b) (combine (var_axes x) (var_axes y)) inds /\
    var_shape y = map zlen inds /\ getable env y D' /\
    (forall p q, picks inds p q -> D' p = D q) /\
    (Forall (@NoDup Z) inds -> holds env y D').
Proof. exact (@slice_statement). Qed.
Print Assumptions C23_slice.

(** C23, any number of steps: slicing again and again gives the array that numpy gives, if no step
    but the last one repeats an element. *)
Theorem C23_nested_partial : forall {V} env (junk : list Z -> V) (x : var axis V) D argss indss,
  env_ok env -> holds env x D -> np_slices (var_shape x) argss indss ->
  (forall inds, In inds (removelast indss) -> Forall (@NoDup Z) inds) ->
  exists y r, slice_all env junk x argss = Some y /\ var_get env junk y = Some r /\
    shape r = last (map (map zlen) indss) (var_shape x) /\
    forall p q, position (shape r) p -> comes_from indss p q -> val r p = D q.
Proof. exact (@nested_statement). Qed.
Print Assumptions C23_nested_partial.

(** x.slice[::-1, [2,0]].slice[..., 1] of the 2 x 3 table 0 1 2 / 10 11 12 *)
Example C23_example :
  let argss := [[Sl (SSlice (Slice None None (Some (-1)))); Sl (SList [2; 0])]; [Ellipsis; Sl (SInt (-1))]] in
  holds env0 blocks table /\ np_slices (var_shape blocks) argss [[[1; 0]; [2; 0]]; [[0; 1]; [1]]] /\
  look (slice_all env0 (fun _ => 0) blocks argss) [[0; 0]; [1; 0]] = Some ([2; 1], [10; 0]).
Proof.
  split; [apply blocks_holds|]. split.
  - apply (ns_cons [2; 3] _ [SSlice (Slice None None (Some (-1))); SList [2; 0]]).
    + exists [SSlice (Slice None None (Some (-1))); SList [2; 0]], [], 0%nat. cbn. auto.
    + apply slices_by_index. reflexivity.
    + apply (ns_cons [2; 2] _ [whole; SInt (-1)]).
      * exists [], [SInt (-1)], 1%nat. cbn. auto.
      * apply slices_by_index. reflexivity.
      * constructor.
  - vm_compute. reflexivity.
Qed.

(** With a repeated element before the last step there may be no result: for x = [0,1,2] on lon = [0,5,7],
    x.slice[[0,0,1]].slice[[2]].get() fails (the second slice is looked up by its coordinate 5 in the
    axis [0,0,5], where Axis.map_to does not find it, C17). *)
Definition row : var axis Z := Var [lon3] (Values (Arr [3] (fun p => nth 0 p 0))).
Theorem C23_repeated_refuted :
  np_slices (var_shape row) [[Sl (SList [0; 0; 1])]; [Sl (SList [2])]] [[[0; 0; 1]]; [[2]]] /\
  holds env0 row (fun p => nth 0 p 0) /\
  (exists y, slice_all env0 (fun _ => 0) row [[Sl (SList [0; 0; 1])]; [Sl (SList [2])]] = Some y) /\
  look (slice_all env0 (fun _ => 0) row [[Sl (SList [0; 0; 1])]; [Sl (SList [2])]]) [] = None.
Proof.
  split; [|split].
  - apply (ns_cons [3] _ [SList [0; 0; 1]]).
    + exists [SList [0; 0; 1]], [], 0%nat. cbn. auto.
    + repeat constructor; cbn; lia.
    + apply (ns_cons [3] _ [SList [2]]).
      * exists [SList [2]], [], 0%nat. cbn. auto.
      * repeat constructor; cbn; lia.
      * constructor.
  - destruct (blocks_holds env0) as [_ Hg]. cbn in Hg. split; [split|].
    + split; [reflexivity|]. reflexivity.
    + intros [|i] [|j] a b Ha Hb Hne; cbn in Ha, Hb; try congruence; try (destruct i; discriminate); destruct j; discriminate.
    + constructor; [|constructor]. inversion Hg as [|? ? _ Hg']. now inversion Hg'.
  - split; [eexists; reflexivity|]. vm_compute. reflexivity.
Qed.
Print Assumptions C23_repeated_refuted.

(** C24, transpose: the axes asked for come first, the others keep their order, and the element at
    permuted coordinates is the element of the source. *)
Theorem C24_transpose : forall {V} env (junk : list Z -> V) (x : var axis V) D axes,
  env_ok env -> getable env x D ->
  axes <> [] -> NoDup axes -> Forall (fun i => (i < length (var_axes x))%nat) axes ->
  let order := axes ++ filter (fun i => negb (existsb (Nat.eqb i) axes)) (seq 0 (length (var_axes x))) in
  exists y D', transpose_var env junk x axes = Some y /\
    Permutation order (seq 0 (length (var_axes x))) /\
    Forall2 (fun i b => nth_error (var_axes x) i = Some b) order (var_axes y) /\
    getable env y D' /\ (Forall good_axis (var_axes x) -> holds env y D') /\
    forall p, position (var_shape x) p -> D' (map (coordinate p) order) = D p.
Proof. exact (@transpose_statement). Qed.
Print Assumptions C24_transpose.

Example C24_transpose_example : holds env0 blocks table /\
  look (transpose_var env0 (fun _ => 0) blocks [1%nat]) [[0; 0]; [0; 1]; [1; 0]; [1; 1]; [2; 0]; [2; 1]] =
  Some ([3; 2], [0; 10; 1; 11; 2; 12]).
Proof. split; [apply blocks_holds|]. vm_compute. reflexivity. Qed.

(** C24, squeeze: exactly the axes of length 1 among those asked for (all, if none is) are removed *)
Theorem C24_squeeze : forall {V} env (junk : list Z -> V) (x : var axis V) D iaxes,
  getable env x D ->
  let y := squeeze_var env junk x iaxes in
  exists gone D', length gone = length (var_axes x) /\
    (forall i a, nth_error (var_axes x) i = Some a ->
       nth_error gone i = Some true <-> (iaxes = [] \/ In i iaxes) /\ axis_len a = 1) /\
    var_axes y = dropped gone (var_axes x) /\
    getable env y D' /\ (Forall good_axis (var_axes x) -> holds env y D') /\
    forall p, position (var_shape x) p -> D' (dropped gone p) = D p.
Proof. exact (@squeeze_statement). Qed.
Print Assumptions C24_squeeze.

Example C24_squeeze_example : 
  look (option_map (fun y => squeeze_var env0 (fun _ => 0) y []) (slice_var env0 (fun _ => 0) blocks [Sl (SInt 1)])) [[0]; [1]; [2]] =
  Some ([3], [10; 11; 12]).
Proof. vm_compute. reflexivity. Qed.

(** C24, extend: new axes at position [pos], the data repeated along them *)
Theorem C24_extend : forall {V} env (junk : list Z -> V) (x : var axis V) D pos newaxes,
  env_ok env -> getable env x D -> (pos <= length (var_axes x))%nat ->
  separate newaxes -> (forall a b, In a (var_axes x) -> In b newaxes -> unrelated a b /\ unrelated b a) ->
  let y := extend_var env junk x pos newaxes in
  exists D', var_axes y = firstn pos (var_axes x) ++ newaxes ++ skipn pos (var_axes x) /\
    getable env y D' /\ (Forall good_axis (var_axes x ++ newaxes) -> holds env y D') /\
    forall p1 p2 new, length p1 = pos -> length new = length newaxes -> D' (p1 ++ new ++ p2) = D (p1 ++ p2).
Proof. exact (@extend_statement). Qed.
Print Assumptions C24_extend.

Definition pres2 : axis := Coord (MkCoord Plain [3] 3 [500; 100]%Q [] [] (1 # 100000)).
Example C24_extend_example :
  separate [pres2] /\ (forall a b, In a (var_axes blocks) -> In b [pres2] -> unrelated a b /\ unrelated b a) /\
  look (Some (extend_var env0 (fun _ => 0) blocks 1 [pres2])) [[0; 0; 2]; [0; 1; 2]; [1; 0; 0]; [1; 1; 0]] = Some ([2; 2; 3], [2; 2; 10; 10]).
Proof.
  split; [|split].
  - intros [|i] [|j] a b Ha Hb Hne; cbn in Ha, Hb; try congruence; try (destruct i; discriminate); destruct j; discriminate.
  - intros a b Ha Hb. cbn in Ha, Hb. destruct Ha as [<-|[<-|[]]], Hb as [<-|[]]; split; reflexivity.
  - vm_compute. reflexivity.
Qed.

(** C24, replace_axes: the same data on the new axes, which must have the old lengths *)
Theorem C24_replace_axes : forall {V} env (junk : list Z -> V) (x : var axis V) D newaxes,
  getable env x D -> separate newaxes ->
  (map axis_len newaxes = var_shape x ->
     exists y, replace_axes env junk x newaxes = Some y /\ var_axes y = newaxes /\ getable env y D) /\
  (map axis_len newaxes <> var_shape x -> replace_axes env junk x newaxes = None).
Proof. exact (@replace_statement). Qed.
Print Assumptions C24_replace_axes.

(** C24, rename and elementwise operations (fill, unfill, as_type): the data with the function applied *)
Theorem C24_rename : forall {V} env (junk : list Z -> V) (x : var axis V) D,
  env_ok env -> getable env x D -> getable env (rename_var env junk x) D.
Proof. exact (fun V env junk x D Henv => rename_getable env Henv junk x D). Qed.
Print Assumptions C24_rename.
Theorem C24_elementwise : forall {V W} env (junk : list Z -> V) (f : V -> W) (x : var axis V) D,
  getable env x D -> getable env (map_var env junk f x) (fun p => f (D p)).
Proof. exact (fun V W env junk f x D => map_getable env junk f x D). Qed.
Print Assumptions C24_elementwise.

(** C32: sorted() permutes the elements of each axis asked for, in increasing (or decreasing) order of
    the coordinate, moves the axis' coordinates and auxiliary arrays and the data together, and
    leaves the other axes alone. *)
Theorem C32_sorted : forall {V} env (junk : list Z -> V) (x : var axis V) D order,
  env_ok env -> holds env x D -> length order = length (var_axes x) ->
  let y := sort_var env junk x order in
  exists inds D', holds env y D' /\ var_shape y = var_shape x /\
    (forall p q, picks inds p q -> D' p = D q) /\
    length inds = length (var_axes x) /\ length (var_axes y) = length (var_axes x) /\
    forall i a b o l, nth_error (var_axes x) i = Some a -> nth_error (var_axes y) i = Some b ->
      nth_error order i = Some o -> nth_error inds i = Some l ->
      sliced a l b /\ index_permutation (Z.to_nat (axis_len a)) l /\
      match o with
      | None => forall k j, elem l k j -> j = k
      | Some reverse => forall k k' j j' v v', elem l k j -> elem l k' j' -> k < k' ->
          elem (axis_vals a) j v -> elem (axis_vals a) j' v' -> if reverse then (v' <= v)%Q else (v <= v')%Q
      end.
Proof. exact (@sorted_statement). Qed.
Print Assumptions C32_sorted.

Example C32_example :
  look (Some (sort_var env0 (fun _ => 0) blocks [None; Some true])) [[0; 0]; [0; 1]; [0; 2]; [1; 0]] = Some ([2; 3], [2; 1; 0; 12]).
Proof. vm_compute. reflexivity. Qed.

(** C24/C32: [holds] excludes coordinates that are closer than 1e-5 of their size.  Without it the data is
    wrong: the axis [100001, 100000] and its sorted version compare equal (np.allclose), so sorted()
    exchanges the coordinates but not the data. *)
Definition close2 : axis := Coord (MkCoord Plain [3] 3 [100001; 100000]%Q [] [] (1 # 100000)).
Definition pair : var axis Z := Var [close2] (Values (Arr [2] (fun p => nth 0 p 0))).
Theorem C32_close_coordinates_refuted :
  getable env0 pair (fun p => nth 0 p 0) /\
  let y := sort_var env0 (fun _ => 0) pair [Some false] in
  (exists b, var_axes y = [b] /\ axis_vals b = [100000; 100001]%Q) /\
  look (Some y) [[0]; [1]] = Some ([2], [0; 1]).
Proof.
  split; [split|].
  - split; reflexivity.
  - intros [|i] [|j] a b Ha Hb Hne; cbn in Ha, Hb; try congruence; try (destruct i; discriminate); destruct j; discriminate.
  - split; [eexists; split; reflexivity|]. vm_compute. reflexivity.
Qed.
Print Assumptions C32_close_coordinates_refuted.
