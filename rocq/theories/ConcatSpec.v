(** Vocabulary for concatenation. *)
From Coq Require Import ZArith List Bool QArith_base.
From Verif Require Import CalModel TimeSearchModel SortSpec IndexModel IndexSpec ArrModel ViewModel ViewSpec AxisModel AxisSpec VarOpsSpec ReduceSpec UfuncSpec ConcatModel.
Import ListNotations.
Open Scope Z_scope.

(** [D] consists of [parts] (their lengths along axis [d], and their data) one after the other along axis [d] *)
Definition joins {V} (d : nat) (parts : list (Z * (list Z -> V))) (D : list Z -> V) : Prop :=
  forall before n E after, parts = before ++ (n, E) :: after ->
  forall q k, (d < length q)%nat -> 0 <= k < n ->
    D (set_at q d (fold_right Z.add 0 (map fst before) + k)) = E (set_at q d k).

(** a further axis [b] that may follow the axis [a]: of the same or a more special class, and of the same dimension *)
Definition may_follow (a b : axis) : Prop :=
  match a, b with
  | Coord c, Coord e =>
      match c_kind c, c_kind e with
      | Plain, Plain => True
      | Plain, _ | _, Plain => False
      | _, _ => c_name c = c_name e
      end
  | NonCoord m, NonCoord n => n_class m = n_class n /\ n_keys m = n_keys n
  | Time s, Time t => t_class s = t_class t /\ t_mask s = t_mask t
  | _, _ => False
  end.

(** the axes [B] of a further variable are the same as the axes [A] of the first one, except for axis [d]; axes at
    different places belong to different dimensions *)
Definition matching (d : nat) (A B : list axis) : Prop :=
  length B = length A /\
  (forall j a b, nth_error A j = Some a -> nth_error B j = Some b -> prefix (axis_class a) (axis_class b) = true) /\
  (forall j a b, j <> d -> nth_error A j = Some a -> nth_error B j = Some b -> axis_same b a = true) /\
  (forall j k a b, j <> k -> nth_error A j = Some a -> nth_error B k = Some b -> unrelated b a).

(** the elements of an axis, as far as they are used to tell them apart *)
Inductive element := EValue (q : Q) | ERow (r : list Z) | EDate (d : date).
Definition elements (a : axis) : list element :=
  match a with Coord c => map EValue (c_vals c) | NonCoord n => map ERow (n_rows n) | Time t => map EDate (t_dates t) end.

(** axis [j] is equivalent (Axis.is_equivalent) to the one of every other variable, or to none of them *)
Definition agree (axes : list axis) (others : list (list axis)) (j : nat) : Prop :=
  forall a o, nth_error axes j = Some a -> In o others -> exists b, nth_error o j = Some b /\ axis_equivalent a b = true.
Definition differ (axes : list axis) (others : list (list axis)) (j : nat) : Prop :=
  forall a o, nth_error axes j = Some a -> In o others -> forall b, nth_error o j = Some b -> axis_equivalent a b = false.
