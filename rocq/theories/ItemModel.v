(** Model of Var.__getitem__: /repo/pygeode/var.py:265-304, and of the numpy indexing it uses. *)
From Coq Require Import ZArith List Bool.
From Verif Require Import IndexModel IndexSpec ArrModel ViewModel AxisModel VarOpsModel StencilModel.
Import ListNotations.
Open Scope Z_scope.

(** one entry of v[...]; numpy has its own integers, which are not instances of int *)
Inductive entry := Py (a : arg) | NpInt (i : Z).
(** v[a, b, ...], v[a], v[[i, j, ...]] (a list or an array) *)
Inductive key := Tuple (l : list entry) | One (e : entry) | Indices (l : list Z).

Definition to_arg (e : entry) : arg := match e with Py a => a | NpInt i => Sl (SInt i) end.
(* varoperations.py:505-506 "if not hasattr(slices,'__len__'): slices = [slices]"; a list is taken for the slices of the axes *)
Definition args_of (k : key) : list arg :=
  match k with Tuple l => map to_arg l | One e => [to_arg e] | Indices l => map (fun i => Sl (SInt i)) l end.

(* var.py:299  0 if isinstance(sl,int) else Ellipsis if sl is Ellipsis else slice(None) *)
Definition extra (e : entry) : arg := match e with Py (Sl (SInt _)) => Sl (SInt 0) | Py Ellipsis => Ellipsis | _ => Sl whole end.

(** numpy: array[s0, s1, ...] with integers and slices; an integer takes its dimension away *)
Definition is_int (s : sel) : bool := match s with SInt _ => true | _ => false end.
Fixpoint np_source (sls : list sel) (inds : list (list Z)) (p : list Z) : list Z :=
  match sls, inds with
  | s :: sls, l :: inds => if is_int s then hd 0 l :: np_source sls inds p else znth l (hd 0 p) :: np_source sls inds (tl p)
  | _, _ => []
  end.
Fixpoint np_shape (sls : list sel) (inds : list (list Z)) : list Z :=
  match sls, inds with
  | s :: sls, l :: inds => if is_int s then np_shape sls inds else zlen l :: np_shape sls inds
  | _, _ => []
  end.
Definition np_getitem {V} (a : arr V) (args : list arg) : option (arr V) :=
  bind (fill_ellipsis args (length (shape a))) (fun sls =>
  bind (sequence (map (fun '(n, s) => slice_index s n) (combine (shape a) sls))) (fun inds =>
  Some (Arr (np_shape sls inds) (fun p => val a (np_source sls inds p))))).

(* var.py:294-304 *)
Definition var_getitem {V} (env : axenv) (junk : list Z -> V) (x : var axis V) (k : key) : option (arr V) :=
  bind (slice_var env junk x (args_of k)) (fun y => bind (var_get env junk y) (fun array =>
  match k with
  | Tuple l => np_getitem array (map extra l)
  | One (Py (Sl (SInt _))) => np_getitem array [Sl (SInt 0)]
  | _ => Some array
  end)).
