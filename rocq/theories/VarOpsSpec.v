(** Vocabulary for variables over axes. *)
From Coq Require Import ZArith List.
From Verif Require Import SortSpec IndexModel IndexSpec ArrModel ViewModel ViewSpec AxisModel AxisSpec VarOpsModel.
Import ListNotations.
Open Scope Z_scope.

(** [x] holds the data [D] on axes that belong to different dimensions *)
Definition getable {V} (env : axenv) (x : var axis V) (D : list Z -> V) : Prop :=
  represents (axis_ops env) x D /\ separate (var_axes x).

(** ... and whose elements are distinguishable *)
Definition holds {V} (env : axenv) (x : var axis V) (D : list Z -> V) : Prop :=
  getable env x D /\ Forall good_axis (var_axes x).

Definition var_shape {V} (x : var axis V) : list Z := map axis_len (var_axes x).

(** coordinate [i] of a position *)
Definition coordinate (p : list Z) (i : nat) : Z := nth i p 0.

(** [sls] is x.slice[args] with one entry for each of the [n] axes: an Ellipsis, or else the end of
    the list, stands for as many full slices as are missing *)
Definition completed (args : list arg) (n : nat) (sls : list sel) : Prop :=
  exists before after m,
    (args = map Sl before ++ Ellipsis :: map Sl after \/ args = map Sl before /\ after = []) /\
    sls = before ++ repeat whole m ++ after /\ length sls = n.

(** the elements selected by an index on an axis of length [n], as numpy does it, except that an
    integer keeps its axis *)
Definition index_of_slice (s : sel) (n : Z) (l : list Z) : Prop :=
  match s with
  | SSlice s => selects s n l
  | SInt i => - n <= i < n /\ l = [if i <? 0 then i + n else i]
  | SList ind => Forall2 (fun i j => - n <= i < n /\ j = if i <? 0 then i + n else i) ind l
  end.

(** [q] without the coordinates of the axes marked "gone" *)
Fixpoint dropped {A} (gone : list bool) (q : list A) : list A :=
  match gone, q with
  | true :: g, _ :: q => dropped g q
  | false :: g, x :: q => x :: dropped g q
  | _, _ => []
  end.

(** [x.slice[args1].slice[args2]...] on an array of the given shape: the index lists of each step *)
Inductive np_slices : list Z -> list (list arg) -> list (list (list Z)) -> Prop :=
| ns_nil s : np_slices s [] []
| ns_cons s args sls inds argss indss :
    completed args (length s) sls ->
    Forall2 (fun '(n, sl) l => index_of_slice sl n l) (combine s sls) inds ->
    np_slices (map zlen inds) argss indss ->
    np_slices s (args :: argss) (inds :: indss).

(** position [p] of the result of these steps comes from position [q] of the source *)
Inductive comes_from : list (list (list Z)) -> list Z -> list Z -> Prop :=
| cf_nil p : comes_from [] p p
| cf_cons inds indss p m q : comes_from indss p m -> picks inds m q -> comes_from (inds :: indss) p q.

Fixpoint slice_all {V} (env : axenv) (junk : list Z -> V) (x : var axis V) (argss : list (list arg)) : option (var axis V) :=
  match argss with
  | [] => Some x
  | args :: t => match slice_var env junk x args with Some y => slice_all env junk y t | None => None end
  end.
