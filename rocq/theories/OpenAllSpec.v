(** Vocabulary for variables that are spread over several files. *)
From Coq Require Import ZArith List Bool QArith_base.
From Verif Require Import CalModel TimeSearchModel SortSpec IndexModel IndexSpec ArrModel ViewModel ViewSpec AxisModel AxisSpec VarOpsModel VarOpsSpec ReduceSpec UfuncSpec StencilSpec ConcatModel ConcatSpec.
Import ListNotations.
Open Scope Z_scope.

(** what one file contains: the variable, its axis along which the files are put together, and the data of the variable *)
Definition part V : Type := var axis V * axis * (list Z -> V).
Definition p_var {V} (y : part V) : var axis V := fst (fst y).
Definition p_axis {V} (y : part V) : axis := snd (fst y).
Definition p_data {V} (y : part V) : list Z -> V := snd y.
(** all the coordinates of the files: the values of the axes *)
Definition coordinates {V} (ys : list (part V)) : list Q := List.concat (map (fun y => axis_vals (p_axis y)) ys).

(** time axes that count in the same way: the values of both are the time from the same date in the same units *)
Definition same_count (s t : taxis) : Prop :=
  t_class t = t_class s /\ t_cal t = t_cal s /\ t_start t = t_start s /\ t_units t = t_units s /\ t_mask t = t_mask s.
Definition values_differ (l : list Q) : Prop := forall i j x y, elem l i x -> elem l j y -> (x == y)%Q -> i = j.
(** no two coordinates of the axes coincide.  For time axes: all count in the same way, from a date that has the fields of the axes *)
Definition told_apart (axes : list axis) : Prop :=
  ((forall a, In a axes -> exists c, a = Coord c) /\ separated (List.concat (map axis_vals axes))) \/
  exists ts s, axes = map Time ts /\ Forall (same_count s) ts /\ start_fields (t_mask s) (t_start s) = t_start s /\
    NoDup (List.concat (map (fun t => records (t_mask s) t) ts)) /\ values_differ (List.concat (map t_vals ts)).

(** the files fit together along axis [d]: each has a part of the coordinates, at least one, no two of all these coordinates coincide, and
    all other axes are the same *)
Definition fit_together {V} (env : axenv) (d : nat) (ys : list (part V)) : Prop :=
  (forall y, In y ys -> responds env (p_var y) (p_data y) /\ nth_error (var_axes (p_var y)) d = Some (p_axis y) /\
     tight_axis (p_axis y) /\ Forall good_axis (var_axes (p_var y)) /\ axis_vals (p_axis y) <> []) /\
  (forall y w, In y ys -> In w ys -> matching d (var_axes (p_var y)) (var_axes (p_var w)) /\ may_follow (p_axis y) (p_axis w) /\
     forall j a b, j <> d -> nth_error (var_axes (p_var y)) j = Some a -> nth_error (var_axes (p_var w)) j = Some b -> axis_equivalent a b = true) /\
  told_apart (map p_axis ys).

(** axis [d] is to be sorted, in decreasing order if [reverse], and the other axes are not, or are in their order already *)
Definition sorts_along {V} (d : nat) (reverse : bool) (ys : list (part V)) (order : list (option bool)) : Prop :=
  nth_error order d = Some (Some reverse) /\
  forall y, In y ys -> length order = length (var_axes (p_var y)) /\
    forall j a r, j <> d -> nth_error (var_axes (p_var y)) j = Some a -> nth_error order j = Some (Some r) ->
      forall i k v w, elem (axis_vals a) i v -> elem (axis_vals a) k w -> i < k -> if r then (w < v)%Q else (v < w)%Q.

Definition in_order (reverse : bool) (l : list Q) : Prop :=
  forall i k v w, elem l i v -> elem l k w -> i < k -> if reverse then (w < v)%Q else (v < w)%Q.
