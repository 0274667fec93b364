(** Vocabulary for the record-search properties. *)
From Coq Require Import ZArith List Permutation.
Import ListNotations.
Open Scope Z_scope.

(** chronological (lexicographic) order of records of equal length *)
Inductive lex_lt : list Z -> list Z -> Prop :=
| ll_here x y a b : x < y -> length a = length b -> lex_lt (x :: a) (y :: b)
| ll_next x a b : lex_lt a b -> lex_lt (x :: a) (x :: b).

(** a table of records with [n] fields each *)
Definition table (n : nat) (t : list (list Z)) : Prop := Forall (fun r => length r = n) t.

(** element [i] of [t] is [r] *)
Definition at_ {A} (t : list A) (i : Z) (r : A) : Prop := 0 <= i /\ nth_error t (Z.to_nat i) = Some r.

(** non-decreasing: no later record is smaller than an earlier one *)
Definition sorted (t : list (list Z)) : Prop :=
  forall i j ri rj, at_ t i ri -> at_ t j rj -> i < j -> ~ lex_lt rj ri.
(** strictly increasing *)
Definition increasing (t : list (list Z)) : Prop :=
  forall i j ri rj, at_ t i ri -> at_ t j rj -> i < j -> lex_lt ri rj.

(** [p] lists every index of a list of length [n] exactly once *)
Definition index_permutation (n : nat) (p : list Z) : Prop :=
  Permutation p (map Z.of_nat (seq 0 n)).

(** The result of map_to: element by element, in the order of [theirs], with the
    requests that have no partner left out. *)
Inductive mapped (mine : list (list Z)) : list (list Z) -> list Z -> Prop :=
| mp_nil : mapped mine [] []
| mp_hit r i theirs ind : at_ mine i r -> mapped mine theirs ind -> mapped mine (r :: theirs) (i :: ind)
| mp_miss r theirs ind : ~ In r mine -> mapped mine theirs ind -> mapped mine (r :: theirs) ind.
