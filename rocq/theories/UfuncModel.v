(** Model of element-wise operations on variables: /repo/pygeode/tools.py:180-265 (can_map, combine_axes)
    and /repo/pygeode/ufunc.py:8-101 (UfuncVar).  Names, dtypes, attributes and progress bars are left out. *)
From Coq Require Import ZArith List Bool QArith_base.
From Verif Require Import IndexModel IndexSpec ArrModel ViewModel AxisModel VarOpsModel ReduceModel.
Import ListNotations.
Open Scope Z_scope.

(** the key 'class' in auxatts *)
Definition class_key : Z := -1.
Fixpoint lookup (k : Z) (l : list (Z * Z)) : option Z :=
  match l with [] => None | (k', v) :: t => if k =? k' then Some v else lookup k t end.
Definition explicit_class (a : axis) : option Z := match a with Coord c => lookup class_key (c_atts c) | _ => None end.

(** numpy's broadcasting of arrays with equally many dimensions *)
Definition bcast_dim (m n : Z) : option Z :=
  if m =? n then Some m else if m =? 1 then Some n else if n =? 1 then Some m else None.
Definition bcast_shape (s t : list Z) : option (list Z) :=
  if Nat.eqb (length s) (length t) then sequence (map (fun '(m, n) => bcast_dim m n) (combine s t)) else None.
Fixpoint bcast_shapes (ss : list (list Z)) : option (list Z) :=
  match ss with
  | [] => None
  | [s] => Some s
  | s :: ss => match bcast_shapes ss with Some t => bcast_shape s t | None => None end
  end.

(** a number or a variable *)
Inductive arg (V : Type) := ANum (v : V) | AVar (x : var axis V).
Arguments ANum {V}. Arguments AVar {V}.
Definition variables {V} (args : list (arg V)) : list (var axis V) :=
  flat_map (fun a => match a with AVar x => [x] | ANum _ => [] end) args.
(** a number or an array *)
Inductive argval (V : Type) := Scalar (v : V) | Array (a : arr V).
Arguments Scalar {V}. Arguments Array {V}.

(** op applied to numbers and arrays of the same shape *)
Definition at_position {V} (p : list Z) (a : argval V) : V := match a with Scalar v => v | Array a => val a p end.
Definition apply_op {V} (op : list V -> V) (args : list (argval V)) : option (arr V) :=
  match bcast_shapes (flat_map (fun a => match a with Array a => [shape a] | Scalar _ => [] end) args) with
  | None => None
  | Some s =>
    match sequence (map (fun a => match a with
                                  | Array a => match broadcast a s with Some b => Some (Array b) | None => None end
                                  | Scalar v => Some (Scalar v) end) args) with
    | None => None
    | Some args => Some (Arr s (fun p => op (map (at_position p) args)))
    end
  end.

Section Env.
Context (env : axenv).

(* tools.py:180-218  can_map; None = ValueError *)
Definition can_map_pc (ap ac : axis) : option (option axis) :=
  if axis_eq ap ac then Some (Some ap)
  else if (match explicit_class ap, explicit_class ac with Some c, Some d => negb (c =? d) | _, _ => false end) then Some None
  else
    let mp := axis_map_to env ap ac in
    let mc := axis_map_to env ac ap in
    if (match mc with Some m => zlen m =? axis_len ap | None => false end) then Some (Some ap)
    else if (match mp with Some m => zlen m =? axis_len ac | None => false end) then Some (Some ac)
    else match mp, mc with Some _, Some _ => None | _, _ => Some None end.
Definition can_map (a1 a2 : axis) : option (option axis) :=
  if prefix (axis_class a1) (axis_class a2) then can_map_pc a1 a2
  else if prefix (axis_class a2) (axis_class a1) then can_map_pc a2 a1
  else Some None.

(* tools.py:246-255  one axis is merged into the list *)
Fixpoint merge_axis (a : axis) (out_axes : list axis) : option (list axis) :=
  match out_axes with
  | [] => Some [a]
  | outa :: t =>
    match can_map a outa with
    | None => None
    | Some (Some ap) => Some (ap :: t)
    | Some None => match merge_axis a t with Some t => Some (outa :: t) | None => None end
    end
  end.
Fixpoint merge_axes (axes out_axes : list axis) : option (list axis) :=
  match axes with
  | [] => Some out_axes
  | a :: t => match merge_axis a out_axes with Some out_axes => merge_axes t out_axes | None => None end
  end.

(* tools.py:224-265  combine_axes *)
Definition combine_axes (axis_lists : list (list axis)) : option (list axis) :=
  match axis_lists with
  | [A] => Some A
  | _ =>
    match merge_axes (concat axis_lists) [] with
    | None => None
    | Some out_axes =>
      match filter (fun A => forallb (fun outa => existsb (fun a => axis_same a outa) A) out_axes) axis_lists with
      | A :: _ => Some A
      | [] => Some out_axes
      end
    end
  end.

(* ufunc.py:82-101  UfuncVar.getview *)
Definition ufunc_view {V} (junk : list Z -> V) (op : list V -> V) (args : list (arg V)) (v : view axis) : option (arr V) :=
  match sequence (map (fun a => match a with
                                | ANum c => Some (Scalar c)
                                | AVar x => match ViewModel.get (axis_ops env) junk v x true true with Some r => Some (Array r) | None => None end
                                end) args) with
  | None => None
  | Some vals => apply_op op vals
  end.
(* ufunc.py:27-79  UfuncVar.__init__ *)
Definition ufunc_var {V} (junk : list Z -> V) (op : list V -> V) (args : list (arg V)) : option (var axis V) :=
  match combine_axes (map var_axes (variables args)) with
  | None => None
  | Some axes => Some (Var axes (GetView (ufunc_view junk op args)))
  end.
End Env.
