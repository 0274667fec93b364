(** What it means for datasets to be found in a collection of files. *)
From Coq Require Import ZArith List Bool String Sorted.
From Verif Require Import DomainModel.
Import ListNotations.
Open Scope Z_scope.

(** A place: a coordinate for each axis (the name of the variable is one of them). It lies in a domain if every axis of the domain has its coordinate. *)
Definition within (p : string -> Z) (d : domain) : Prop :=
  forall j s vs, nth_error (d_names d) j = Some s -> nth_error (d_values d) j = Some vs -> In (p s) vs.
(** a domain: axes with different names and sets of values *)
Definition proper (d : domain) : Prop :=
  NoDup (d_names d) /\ List.length (d_values d) = List.length (d_names d) /\ Forall (StronglySorted Z.lt) (d_values d).
(** one domain is part of another with the same axes *)
Definition inside (a b : domain) : Prop := d_names a = d_names b /\ Forall2 (fun v w => forall x, In x v -> In x w) (d_values a) (d_values b).
(** variables with the same axes have them in the same order *)
Definition same_order (ds : list domain) : Prop :=
  forall a b, In a ds -> In b ds -> (forall s, In s (d_names a) <-> In s (d_names b)) -> d_names a = d_names b.
(** a place that belongs to what one gets by putting two domains together along one axis: it is in one of them, and on the other axes in both *)
Definition apart_from (s : string) (p : string -> Z) (d : domain) : Prop :=
  forall j t vs, t <> s -> nth_error (d_names d) j = Some t -> nth_error (d_values d) j = Some vs -> In (p t) vs.
Definition joint (s : string) (p : string -> Z) (a b : domain) : Prop := (within p a \/ within p b) /\ apart_from s p a /\ apart_from s p b.
