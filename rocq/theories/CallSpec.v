(** What keywords with the letters m and s ask for. *)
From Coq Require Import ZArith List Bool QArith_base Qcanon String Ascii.
From Verif Require Import IndexModel IndexSpec ArrModel ViewModel AxisModel AxisSpec VarOpsModel VarOpsSpec NumModel ReduceModel ReduceSpec SelectModel SelectSpec.
Import ListNotations.
Open Scope Z_scope.

(** the names of an axis are those of its slices, and its weights are sliced with it *)
Definition follows_slices (N : naming) : Prop := forall a l b, sliced a l b ->
  (forall k, alias N b k = alias N a k) /\ auxarray N b "weights" = option_map (fun ws => AxisModel.pick 0%Q ws l) (auxarray N a "weights").
(** axis number [j] is to be averaged, or squeezed *)
Definition asked (N : naming) (axes : list axis) (c : ascii) (kw : list (string * request)) (j : nat) : Prop :=
  exists kv ax, In kv kw /\ asks N axes c kv ax /\ first_axis N axes ax j.
(** no two keywords ask for the mean over one axis *)
Definition averaged_once (N : naming) (axes : list axis) (kw : list (string * request)) : Prop :=
  forall pre kv post kv' ax ax' j, kw = pre ++ kv :: post -> In kv' post -> asks N axes "m" kv ax -> asks N axes "m" kv' ax' ->
    first_axis N axes ax j -> first_axis N axes ax' j -> False.
(** the weights of the axes to be averaged over: none, or those of one of them, by the position in the variable *)
Definition weights_of (N : naming) (axes : list axis) (kw : list (string * request)) (W : option (list Z -> num)) : Prop :=
  (W = None /\ forall j a, asked N axes "m" kw j -> nth_error axes j = Some a -> auxarray N a "weights" = None) \/
  (exists i a ws, asked N axes "m" kw i /\ nth_error axes i = Some a /\ auxarray N a "weights" = Some ws /\
     W = Some (fun q => Fin (Q2Qc (nth (Z.to_nat (nth i q 0)) ws 0%Q))) /\
     forall j b, asked N axes "m" kw j -> nth_error axes j = Some b -> j <> i -> auxarray N b "weights" = None).
(** the mean of the data [D] at the given positions, with the weights [W] if there are any *)
Definition mean_of (W : option (list Z -> num)) (D : list Z -> num) (qs : list (list Z)) (v : num) : Prop :=
  match W with None => float_mean (map D qs) v | Some w => float_wmean (map (fun q => (D q, w q)) qs) v end.
