(** Vocabulary for datasets. *)
From Coq Require Import ZArith List String.
From Verif Require Import IndexModel IndexSpec ArrModel ViewModel ViewSpec AxisModel AxisSpec VarOpsModel VarOpsSpec DatasetModel.
Import ListNotations.
Open Scope Z_scope.
Open Scope list_scope.

(** all axis objects of a list of variables *)
Definition axes_of {V} (vars : list (vobj V)) : list axobj := flat_map v_axes vars.
(** Python objects: the same identity means the same object; [next] is an identity no object has yet *)
Definition objects (P : list axobj) (next : Z) : Prop :=
  (forall a b, In a P -> In b P -> a_id a = a_id b -> a = b) /\ (forall a, In a P -> a_id a < next).
(** the same object, or equal (==) *)
Definition agree (a b : axobj) : Prop := a = b \/ axis_eq (a_axis a) (a_axis b) = true.
(** every two axes with this name agree *)
Definition agreed (P : list axobj) (n : string) : Prop := forall a b, In a P -> In b P -> a_name a = n -> a_name b = n -> agree a b.

(** [b] is what the dataset uses instead of axis [a]: an axis with the same name that agrees with [a] - possibly a renamed copy of it, but
    not if all axes with that name agree *)
Definition stands_for (enc : string -> Z) (P : list axobj) (a b : axobj) : Prop :=
  exists r, In r P /\ a_name r = a_name a /\ agree a r /\
            (b = r \/ (a_axis b = rename_axis enc (a_name b) (a_axis r) /\ forall c, In c P -> a_name c <> a_name b)) /\ (agreed P (a_name a) -> b = r).
(** at most 99 variables have the same name, at most 99 different axes have the same name *)
Definition few_names (l : list string) : Prop := forall n, (occurrences n l < 100)%nat.
Definition few_axes (P : list axobj) : Prop := forall hs,
  incl hs P ->
  (forall i j h h', (i < j)%nat -> nth_error hs i = Some h -> nth_error hs j = Some h' -> a_name h = a_name h' /\ ~ agree h' h) ->
  (List.length hs < 100)%nat.
(** == behaves like equality on these axes *)
Definition equality_on (P : list axobj) : Prop :=
  (forall x, In x P -> axis_eq (a_axis x) (a_axis x) = true) /\
  (forall x y, In x P -> In y P -> axis_eq (a_axis x) (a_axis y) = true -> axis_eq (a_axis y) (a_axis x) = true) /\
  (forall x y z, In x P -> In y P -> In z P -> axis_eq (a_axis x) (a_axis y) = true -> axis_eq (a_axis y) (a_axis z) = true -> axis_eq (a_axis x) (a_axis z) = true).
(** different variables have different names, different axes have different names *)
Definition well_named {V} (vars : list (vobj V)) : Prop :=
  NoDup (map v_name vars) /\ ~ In ""%string (map v_name vars) /\
  (forall a b, In a (axes_of vars) -> In b (axes_of vars) -> a_name a = a_name b -> a = b).
