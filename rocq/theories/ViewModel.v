(** Model of View (/repo/pygeode/view.py:88-320): construction, map_to, subaxes, get.
    The axis type [A] is a parameter with the four operations the code uses. *)
From Coq Require Import ZArith List Bool.
From Verif Require Import IndexModel IndexSpec ArrModel.
Import ListNotations.
Open Scope Z_scope.

(** [same a b]: "a is b or a == b"; [mapto a b]: a.map_to(b); [take a ind]: a.slice[ind] *)
Record axops (A : Type) := AxOps {
  len : A -> Z;
  same : A -> A -> bool;
  mapto : A -> A -> option (list Z);
  take : A -> list Z -> A }.
Arguments len {A}. Arguments same {A}. Arguments mapto {A}. Arguments take {A}.

Record view (A : Type) := MkView { vaxes : list A; vslices : list sel; vinds : list (list Z) }.
Arguments MkView {A}. Arguments vaxes {A}. Arguments vslices {A}. Arguments vinds {A}.

(** A variable's data source, in the order View.get tries them (view.py:249-281).
    Conversions of the dtype are not modelled. *)
Inductive source (A V : Type) :=
| Values (a : arr V)                                  (* var.values *)
| GetView (f : view A -> option (arr V))              (* var.getview(view) *)
| GetValues (f : list Z -> list Z -> option (arr V)). (* var.getvalues(start, count) *)
Arguments Values {A V}. Arguments GetView {A V}. Arguments GetValues {A V}.

Record var (A V : Type) := Var { var_axes : list A; var_source : source A V }.
Arguments Var {A V}. Arguments var_axes {A V}. Arguments var_source {A V}.

Section View.
Context {A V : Type} (ops : axops A) (junk : list Z -> V).   (* junk: contents of np.empty *)

(* view.py:90-121  View(axes, slices=...) *)
Definition view_of_slices (axes : list A) (slices : list sel) : option (view A) :=
  if Nat.eqb (length axes) (length slices) then
    match sequence (map (fun '(sl, a) => expand sl (len ops a)) (combine slices axes)) with
    | Some inds => Some (MkView axes (map simplify inds) inds)
    | None => None
    end
  else None.

(* view.py:106-113  View(axes, force_integer_indices=...) *)
Definition view_of_inds (axes : list A) (inds : list (list Z)) : view A :=
  MkView axes (map simplify inds) inds.

Definition vshape (v : view A) : list Z := map zlen (vinds v).

(* view.py:178-184  subaxis / subaxes *)
Definition subaxes (v : view A) : option (list A) :=
  sequence (map (fun '(a, sl) => match np_index sl (len ops a) with Some ind => Some (take ops a ind) | None => None end)
                (combine (vaxes v) (vslices v))).

(** position of the first element satisfying [f] *)
Fixpoint find_first {B C} (f : B -> option C) (l : list B) : option (nat * C) :=
  match l with
  | [] => None
  | x :: t => match f x with
              | Some c => Some (0%nat, c)
              | None => match find_first f t with Some (i, c) => Some (S i, c) | None => None end
              end
  end.

(* view.py:145-163  the slice and view axis for one output axis; None = error,
   Some (sl, None) = nothing of interest was found *)
Definition map_axis (v : view A) (strict : bool) (out_a : A) : option (sel * option nat) :=
  match find_first (fun a => if same ops out_a a then Some tt else None) (vaxes v) with
  | Some (in_i, _) => Some (nth in_i (vslices v) (SList []), Some in_i)
  | None =>
    match subaxes v with
    | None => None
    | Some subs =>
      match find_first (mapto ops out_a) subs with
      | Some (in_i, m) => Some (simplify m, Some in_i)
      | None => if strict then None else Some (SSlice (Slice None None None), None)
      end
    end
  end.

(* order[in_i] = out_i *)
Fixpoint build_order (ms : list (sel * option nat)) (out_i : nat) (order : list (option nat)) : list (option nat) :=
  match ms with
  | [] => order
  | (_, Some in_i) :: t => build_order t (S out_i) (set_at order in_i (Some out_i))
  | (_, None) :: t => build_order t (S out_i) order
  end.

(* view.py:126-176  map_to *)
Definition map_to (v : view A) (axes : list A) (strict : bool) : option (view A * list (option nat)) :=
  match sequence (map (map_axis v strict) axes) with
  | None => None
  | Some ms =>
    match view_of_slices axes (map fst ms) with
    | None => None
    | Some nv => Some (nv, build_order ms 0 (map (fun _ => None) (vaxes v)))
    end
  end.

(* np.unique *)
Fixpoint insert (x : Z) (l : list Z) : list Z :=
  match l with
  | [] => [x]
  | y :: t => if x <? y then x :: l else if x =? y then l else y :: insert x t
  end.
Definition np_unique (l : list Z) : list Z := fold_right insert [] l.

(* np.all(u == ind): elementwise for equal lengths; a one-element u is broadcast; for other
   lengths numpy < 1.25 compares unequal (later versions raise) *)
Definition np_all_eq (u ind : list Z) : bool :=
  if Nat.eqb (length u) (length ind) then forallb (fun '(x, y) => x =? y) (combine u ind)
  else match u with [x] => forallb (Z.eqb x) ind | _ => false end.

(* np.searchsorted(u, x): the number of elements of u below x *)
Definition searchsorted (u : list Z) (x : Z) : Z := zlen (filter (fun y => y <? x) u).

(* view.py:270-278  values = np.empty(...); values[outsl] = var.getvalues(start, count) *)
Fixpoint read_pieces (f : list Z -> list Z -> option (arr V)) (pieces : list (list (Z * Z) * list Z * list Z))
  (values : arr V) : option (arr V) :=
  match pieces with
  | [] => Some values
  | (outsl, start, count) :: t =>
    match f start count with
    | None => None
    | Some b => if list_eq_dec Z.eq_dec (shape b) count then read_pieces f t (assign values outsl b) else None
    end
  end.

(* view.py:249-281 *)
Definition read (x : var A V) (uv : view A) : option (arr V) :=
  match var_source x with
  | Values a => apply_slices 0 (vslices uv) a
  | GetView f => f uv
  | GetValues f =>
    match loop_contiguous (vinds uv) with
    | None => None
    | Some pieces => read_pieces f pieces (Arr (vshape uv) junk)
    end
  end.

Definition somes {B} (l : list (option B)) : list B :=
  flat_map (fun o => match o with Some b => [b] | None => [] end) l.

Definition shape_or_1 (s : list Z) (order : list (option nat)) : list Z :=
  map (fun '(n, o) => match o with Some _ => n | None => 1 end) (combine s order).

(* view.py:236-246, 300  request the sorted unique indices only, then put duplicates back *)
Definition fetch (x : var A V) (newview : view A) : option (arr V) :=
  let unique_indices := map np_unique (vinds newview) in
  if forallb (fun '(u, ind) => np_all_eq u ind) (combine unique_indices (vinds newview))
  then read x newview
  else match read x (view_of_inds (vaxes newview) unique_indices) with
       | None => None
       | Some a => if Nat.eqb (length (shape a)) (length (vinds newview))
                   then Some (outer_index a (map (fun '(u, ind) => map (searchsorted u) ind) (combine unique_indices (vinds newview))))
                   else None
       end.

(* view.py:200-318  View.get.  Progress bars, warnings and write protection are not modelled. *)
Definition get (v : view A) (x : var A V) (strict conform : bool) : option (arr V) :=
  if negb strict && conform then None else
  match map_to v (var_axes x) strict with
  | None => None
  | Some (newview, order) =>
    if existsb (Z.eqb 0) (vshape newview) then Some (Arr (shape_or_1 (vshape newview) order) junk)
    else
      match fetch x newview with
      | None => None
      | Some a =>
        if negb (Nat.eqb (length (shape a)) (length (var_axes x))) then None
        else if strict && negb (if list_eq_dec Z.eq_dec (shape a) (vshape newview) then true else false) then None
        else if conform then
          match transpose a (somes order) with
          | None => None
          | Some a => reshape a (shape_or_1 (vshape v) order)
          end
        else Some a
      end
  end.

End View.
