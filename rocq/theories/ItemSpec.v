(** Vocabulary for v[...]: numpy's rule. *)
From Coq Require Import ZArith List.
From Verif Require Import SortSpec IndexModel IndexSpec ArrModel VarOpsModel VarOpsSpec ItemModel.
Import ListNotations.
Open Scope Z_scope.

(** Element [p] of array[s0, s1, ...] is element [q] of the array, the slices selecting the indices [inds]: an integer has no index in [p]. *)
Inductive item : list sel -> list (list Z) -> list Z -> list Z -> Prop :=
| item_nil : item [] [] [] []
| item_int i k sls inds p q : item sls inds p q -> item (SInt i :: sls) ([k] :: inds) p (k :: q)
| item_slice s l j x sls inds p q : (forall i, s <> SInt i) -> elem l j x -> item sls inds p q -> item (s :: sls) (l :: inds) (j :: p) (x :: q).
(** the shape of the result: the numbers of indices of the slices that are not integers *)
Inductive item_shape : list sel -> list (list Z) -> list Z -> Prop :=
| ish_nil : item_shape [] [] []
| ish_int i l sls inds ns : item_shape sls inds ns -> item_shape (SInt i :: sls) (l :: inds) ns
| ish_slice s l sls inds ns : (forall i, s <> SInt i) -> item_shape sls inds ns -> item_shape (s :: sls) (l :: inds) (zlen l :: ns).
(** keys of Python integers, slices, lists and Ellipsis *)
Definition plain_key (k : key) (args : list arg) : Prop := k = Tuple (map Py args) \/ (exists a, k = One (Py a) /\ (forall l, a <> Sl (SList l)) /\ args = [a]).
