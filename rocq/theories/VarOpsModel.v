(** Model of the variable wrappers of /repo/pygeode/varoperations.py, Var._getitem_asvar and Var.get
    (/repo/pygeode/var.py:196-263, 654-725).  Axis identifiers are positions (whichaxis is applied
    already); names, attributes and dtypes are not modelled. *)
From Coq Require Import ZArith List Bool QArith_base.
From Verif Require Import IndexModel IndexSpec ArrModel ViewModel AxisModel.
Import ListNotations.
Open Scope Z_scope.

(** one entry of var.slice[...] *)
Inductive arg := Sl (s : sel) | Ellipsis.
Definition whole : sel := SSlice (Slice None None None).

Fixpoint split_ellipsis (args : list arg) : list sel * list arg :=
  match args with
  | [] => ([], [])
  | Ellipsis :: t => ([], t)
  | Sl s :: t => let '(b, a) := split_ellipsis t in (s :: b, a)
  end.
Fixpoint plain (args : list arg) : option (list sel) :=
  match args with
  | [] => Some []
  | Ellipsis :: _ => None
  | Sl s :: t => match plain t with Some l => Some (s :: l) | None => None end
  end.

(* varoperations.py:505-523  SlicedVar.__init__: an Ellipsis (implicit at the end) stands for the
   missing slices; None = more than one Ellipsis, or too many slices *)
Definition fill_ellipsis (args : list arg) (naxes : nat) : option (list sel) :=
  let '(before, after) := split_ellipsis args in
  match plain after with
  | None => None
  | Some after =>
    if Nat.ltb naxes (length before + length after) then None
    else Some (before ++ repeat whole (naxes - (length before + length after)) ++ after)
  end.

(* axis.py:362  np.array(self.values[slices], ndmin=1): the indices; an integer is kept as one element *)
Definition slice_index (s : sel) (n : Z) : option (list Z) :=
  match s with
  | SInt i => if (- n <=? i) && (i <? n) then Some [from_end n i] else None
  | _ => np_index s n
  end.

(** numpy broadcasting of an array to a shape of the same rank (out[()] = values) *)
Definition broadcast {V} (a : arr V) (s : list Z) : option (arr V) :=
  if Nat.eqb (length (shape a)) (length s) && forallb (fun '(m, n) => (m =? n) || (m =? 1)) (combine (shape a) s)
  then Some (Arr s (fun p => val a (map (fun '(m, x) => if m =? 1 then 0 else x) (combine (shape a) p))))
  else None.

Section Ops.
Context {V : Type} (env : axenv) (junk : list Z -> V).
Notation ops := (axis_ops env).
Notation var := (ViewModel.var axis V).
Notation get := (ViewModel.get ops junk).

(* view.py:90-121 with slices=None *)
Definition full_view (axes : list axis) : option (view axis) := view_of_slices ops axes (map (fun _ => whole) axes).

(* var.py:720-725  Var.get (no keywords; the copy is not modelled) *)
Definition var_get (x : var) : option (arr V) :=
  match full_view (var_axes x) with Some v => get v x true true | None => None end.

(** a wrapper whose getview is "return view.get(self.var)": SlicedVar (varoperations.py:531-535),
    TransposedVar (line 131), SortedVar (194-196), RenamedVar (395) *)
Definition wrapped (x : var) (axes : list axis) : var :=
  Var axes (GetView (fun v => get v x true true)).

(* varoperations.py:494-536 SlicedVar, var.py:249-262 _getitem_asvar.  If every axis is unchanged
   the variable itself is returned ("is" compared by the values, which decide it in axis.py:365). *)
Definition slice_var (x : var) (args : list arg) : option var :=
  match fill_ellipsis args (length (var_axes x)) with
  | None => None
  | Some sls =>
    match sequence (map (fun '(a, s) => slice_index s (axis_len a)) (combine (var_axes x) sls)) with
    | None => None
    | Some inds =>
      if forallb (fun '(a, ind) => qlist_eqb (pick 0%Q (axis_vals a) ind) (axis_vals a)) (combine (var_axes x) inds)
      then Some x
      else Some (wrapped x (map (fun '(a, ind) => axis_take env a ind) (combine (var_axes x) inds)))
    end
  end.

(* varoperations.py:125-179  transpose.  [axes] = positions asked for *)
Definition transpose_var (x : var) (axes : list nat) : option var :=
  match axes with
  | [] => None
  | _ =>
    let n := length (var_axes x) in
    if forallb (fun a => Nat.ltb a n) axes then
      let alist := axes ++ filter (fun a => negb (existsb (Nat.eqb a) axes)) (seq 0 n) in
      if list_eq_dec Nat.eq_dec alist (seq 0 n) then Some x
      else match sequence (map (fun i => nth_error (var_axes x) i) alist) with
           | Some l => Some (wrapped x l)
           | None => None
           end
    else None
  end.

(* varoperations.py:58-122  extend *)
Definition extend_var (x : var) (pos : nat) (newaxes : list axis) : var :=
  Var (firstn pos (var_axes x) ++ newaxes ++ skipn pos (var_axes x))
      (GetView (fun v => match get v x true true with
                         | Some values => broadcast values (vshape v)
                         | None => None
                         end)).

(* varoperations.py:7-55  squeeze.  [iaxes] = positions; [] means all; only axes of length 1 are removed *)
Definition squeeze_var (x : var) (iaxes : list nat) : var :=
  let n := length (var_axes x) in
  let iaxes := match iaxes with [] => seq 0 n | _ => iaxes end in
  let gone i := existsb (Nat.eqb i) iaxes && (axis_len (nth i (var_axes x) (NonCoord (MkNonCoord [] [] []))) =? 1) in
  Var (map snd (filter (fun '(i, _) => negb (gone i)) (combine (seq 0 n) (var_axes x))))
      (GetView (fun v => match get v x false false with
                         | Some values => reshape values (vshape v)
                         | None => None
                         end)).

(* axis.py:292-334  argsort: S[::step] with step = -1 or 1 (a default order has |plotorder| = 1) *)
Definition axis_argsort (a : axis) (reverse : bool) : list Z :=
  let s := argsort env (axis_vals a) in if reverse then rev s else s.

(* varoperations.py:182-271  sorted; [order] = Some reverse for the axes to sort *)
Definition sort_var (x : var) (order : list (option bool)) : var :=
  wrapped x (map (fun '(a, o) => match o with Some r => axis_take env a (axis_argsort a r) | None => a end)
                 (combine (var_axes x) order)).

(* varoperations.py:388-396 RenamedVar *)
Definition rename_var (x : var) : var := wrapped x (var_axes x).

(* varoperations.py:275-315 Replace_axes; [newaxes] = the complete new list *)
Definition replace_axes (x : var) (newaxes : list axis) : option var :=
  if Nat.eqb (length newaxes) (length (var_axes x)) &&
     forallb (fun '(a, b) => axis_len a =? axis_len b) (combine newaxes (var_axes x))
  then Some (Var newaxes (GetView (fun v => get (MkView (var_axes x) (vslices v) (vinds v)) x true true)))
  else None.

(* varoperations.py:545-… FillVar, UnfillVar, Cast: an elementwise change of the values *)
Definition map_var {W} (f : V -> W) (x : var) : ViewModel.var axis W :=
  Var (var_axes x) (GetView (fun v => match get v x true true with
                                      | Some a => Some (Arr (shape a) (fun p => f (val a p)))
                                      | None => None
                                      end)).
End Ops.
