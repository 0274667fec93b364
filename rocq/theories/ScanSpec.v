(** What it means to read a variable that is spread over files. *)
From Coq Require Import ZArith List Bool Sorted.
From Verif Require Import ScanModel.
Import ListNotations.
Open Scope Z_scope.

Definition rising (a : list Z) : Prop := StronglySorted Z.lt a.
Definition falling (a : list Z) : Prop := StronglySorted (fun x y => y < x) a.
(** the i-th requested value on each axis *)
Inductive coordinates : list (list Z) -> list nat -> list Z -> Prop :=
| coord_nil : coordinates [] [] []
| coord_cons a i x req idx c : nth_error a i = Some x -> coordinates req idx c -> coordinates (a :: req) (i :: idx) (x :: c).
Section Spec.
Context {V : Type}.
(** the file has data at these coordinates *)
Definition has_place (f : file V) (c : list Z) : Prop := Forall2 (fun x a => In x a) c (f_axes f).
(** the value in the last file that has it; NaN if no file has it *)
Definition latest (fs : list (file V)) (c : list Z) (o : option V) : Prop :=
  (o = None /\ forall f, In f fs -> ~ has_place f c) \/
  (exists before f after, fs = before ++ f :: after /\ has_place f c /\ (forall g, In g after -> ~ has_place g c) /\ o = Some (f_data f c)).
End Spec.
(** the places where the first list has elements of the second are evenly spaced *)
Definition evenly (a1 a2 : list Z) : Prop :=
  exists start d n, (0 < d)%nat /\ forall i, (exists x, nth_error a1 i = Some x /\ In x a2) <-> exists k, (k < n)%nat /\ i = (start + k * d)%nat.
