(** C22: views of a variable *)
From Coq Require Import ZArith List Bool Lia QArith_base.
From Verif Require Import SortSpec IndexModel IndexSpec ArrModel ViewModel ViewSpec ArrProofs AxisModel AxisSpec VarOpsModel VarOpsSpec VarOpsProofs EnvExample.
Import ListNotations.
Open Scope Z_scope.

(** C22 (data): whatever integer indices a view has on each axis (unsorted, repeated, none at all),
    get returns the array whose element at p is the data's element at (inds[0][p0], inds[1][p1], ...).
    The variable may hold an array, or answer views, or answer contiguous blocks; it is only relied on
    to answer views whose index lists are increasing or have all elements equal ([represents]). *)
Theorem C22_get : forall {V} env (junk : list Z -> V) (x : var axis V) D inds,
  getable env x D ->
  Forall2 (fun a l => in_range (axis_len a) l) (var_axes x) inds ->
  exists r, get (axis_ops env) junk (view_of_inds (var_axes x) inds) x true true = Some r /\
    shape r = map zlen inds /\ forall p q, picks inds p q -> val r p = D q.
Proof. exact (fun V env junk x D inds Hx Hr => view_get_picks env junk x D inds Hx Hr). Qed.
Print Assumptions C22_get.

(** get without a view: all of the data *)
Theorem C22_get_all : forall {V} env (junk : list Z -> V) (x : var axis V) D,
  getable env x D ->
  exists r, var_get env junk x = Some r /\ array_is r (var_shape x) D.
Proof. exact (fun V env junk x D Hx => getable_var_get env junk x D Hx). Qed.
Print Assumptions C22_get_all.

(** a 2 x 3 variable that can only be read in blocks *)
Definition lat2 : axis := Coord (MkCoord Plain [1] 1 [10; 20]%Q [] [] (1 # 100000)).
Definition lon3 : axis := Coord (MkCoord Plain [2] 2 [0; 5; 7]%Q [(9, [1; 2; 3]%Q)] [] (1 # 100000)).
Definition blocks : var axis Z :=
  Var [lat2; lon3] (GetValues (fun start count => Some (Arr count (fun p => 10 * nth 0 (plus start p) 0 + nth 1 (plus start p) 0)))).
Definition table (p : list Z) : Z := 10 * nth 0 p 0 + nth 1 p 0.

Lemma blocks_getable env : getable env blocks table.
Proof.
  split.
  - cbn. intros start count _ _. eexists. split; [reflexivity|]. split; [reflexivity|]. reflexivity.
  - intros [|[|i]] [|[|j]] a b Ha Hb Hne; cbn in Ha, Hb; try congruence; try (destruct i; discriminate); try (destruct j; discriminate);
    injection Ha as <-; injection Hb as <-; reflexivity.
Qed.
Lemma blocks_holds env : holds env blocks table.
Proof.
  split; [apply blocks_getable|].
  assert (forall l : list Q, (forall i j x y, (i < j)%nat -> nth_error l i = Some x -> nth_error l j = Some y -> ~ np_close x y /\ ~ np_close y x) -> separated l) as H.
  { intros l H i j x y [Hi0 Hi] [Hj0 Hj] Hne. destruct (Z_lt_le_dec i j) as [Hlt|Hlt].
    - eapply (proj1 (H (Z.to_nat i) (Z.to_nat j) x y ltac:(lia) Hi Hj)).
    - eapply (proj2 (H (Z.to_nat j) (Z.to_nat i) y x ltac:(lia) Hj Hi)). }
  repeat constructor; cbn; try (now repeat constructor); try discriminate.
  - apply H. intros [|[|i]] [|[|j]] x y Hij Hx Hy; try lia; cbn in Hx, Hy; try discriminate; try (destruct i; discriminate); try (destruct j; discriminate).
    injection Hx as <-. injection Hy as <-. split; cbv; intros K; now apply K.
  - apply H. intros [|[|[|i]]] [|[|[|j]]] x y Hij Hx Hy; try lia; cbn in Hx, Hy; try discriminate; try (destruct i; discriminate); try (destruct j; discriminate);
    injection Hx as <-; injection Hy as <-; split; cbv; intros K; now apply K.
Qed.

Example C22_example : exists r,
  get (axis_ops env0) (fun _ => 0) (view_of_inds [lat2; lon3] [[1; 0; 1]; [2; 2; 0]]) blocks true true = Some r /\
  getable env0 blocks table /\ shape r = [3; 3] /\
  map (val r) [[0; 0]; [0; 1]; [0; 2]; [1; 0]; [1; 1]; [1; 2]; [2; 0]; [2; 1]; [2; 2]] = [12; 12; 10; 2; 2; 0; 12; 12; 10].
Proof. eexists. split; [reflexivity|]. split; [apply blocks_getable|]. split; reflexivity. Qed.

(** C22 (requests): repeated indices are not removed before the variable is asked when they are all
    equal: [1,1,1] is passed on, because comparing the one unique index with all three gives True. *)
Definition picky : var axis Z :=    (* answers views with increasing indices only *)
  Var [lon3] (GetView (fun v => match vinds v with
    | [l] => if forallb (fun '(x, y) => x <? y) (combine l (tl l)) then Some (Arr [zlen l] (fun p => znth l (nth 0 p 0))) else None
    | _ => None end)).
Theorem C22_unique_requests_refuted :
  get (axis_ops env0) (fun _ => 0) (view_of_inds [lon3] [[1; 1; 1]]) picky true true = None /\
  (exists r, get (axis_ops env0) (fun _ => 0) (view_of_inds [lon3] [[2; 1; 1]]) picky true true = Some r).
Proof. split; [reflexivity|]. eexists. reflexivity. Qed.
Print Assumptions C22_unique_requests_refuted.
