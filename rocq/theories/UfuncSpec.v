(** Vocabulary for operations on several variables. *)
From Coq Require Import ZArith List QArith_base.
From Verif Require Import SortSpec IndexModel IndexSpec ArrModel ViewModel AxisModel AxisSpec VarOpsSpec ReduceSpec UfuncModel.
Import ListNotations.
Open Scope Z_scope.

(** [b] consists of the elements [l] of the axis [a], in this order, none of them twice *)
Definition restricts (a : axis) (l : list Z) (b : axis) : Prop :=
  good_axis a /\ in_range (axis_len a) l /\ NoDup l /\ sliced a l b.

(** a usable axis with a tolerance of at most 1e-5 (the default) *)
Definition tight_axis (a : axis) : Prop :=
  good_axis a /\ match a with Coord c => (c_rtol c <= 1 # 100000)%Q | _ => True end.

(** two axes belong to different dimensions, or one consists of elements of the other *)
Definition compatible (a b : axis) : Prop :=
  (unrelated a b /\ unrelated b a) \/ (exists l, restricts a l b) \/ (exists l, restricts b l a).

(** position [q] of a variable with the axes [A] has the coordinates of position [p] of a variable with the axes [B] *)
Definition same_place (A : list axis) (q : list Z) (B : list axis) (p : list Z) : Prop :=
  Forall2 (fun a i => exists j b l k, nth_error B j = Some b /\ restricts a l b /\ nth_error p j = Some k /\ elem l k i) A q.

(** an argument of an element-wise operation is a number, or a variable with these data *)
Definition supplies {V} (env : axenv) (a : UfuncModel.arg V) (D : list Z -> V) : Prop :=
  match a with ANum c => forall p, D p = c | AVar x => responds env x D end.

(** what an argument contributes to the element of the result at position [p] *)
Definition contributes {V} (axes : list axis) (p : list Z) (a : UfuncModel.arg V) (D : list Z -> V) (v : V) : Prop :=
  match a with
  | ANum c => v = c
  | AVar x => exists q, position (var_shape x) q /\ same_place (var_axes x) q axes p /\ v = D q
  end.
