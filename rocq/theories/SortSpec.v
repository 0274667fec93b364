(** Vocabulary for the sorting and nearest-value properties. *)
From Coq Require Import ZArith List QArith_base Qabs Permutation.
Import ListNotations.
Open Scope Z_scope.

(** element [k] of [a] *)
Definition elem {A} (a : list A) (k : Z) (x : A) : Prop := 0 <= k /\ nth_error a (Z.to_nat k) = Some x.

(** the list of all (value, position) pairs of an array *)
Definition with_positions (a : list Q) : list (Q * Z) :=
  combine a (map Z.of_nat (seq 0 (length a))).

Definition nondecreasing (l : list (Q * Z)) : Prop :=
  forall i j x y, elem l i x -> elem l j y -> i < j -> (fst x <= fst y)%Q.

(** equal values keep their original order *)
Definition stable (l : list (Q * Z)) : Prop :=
  forall i j x y, elem l i x -> elem l j y -> i < j -> (fst x == fst y)%Q -> snd x < snd y.

(** every element is at least as large as all later ones *)
Definition nonincreasing (a : list Q) : Prop :=
  forall i j x y, elem a i x -> elem a j y -> i < j -> (y <= x)%Q.

Definition distinct (a : list Q) : Prop :=
  forall i j x y, elem a i x -> elem a j y -> i <> j -> ~ (x == y)%Q.

(** position [i] holds an element of [a] nearest to [B], within relative tolerance *)
Definition nearest_within (a : list Q) (rtol B : Q) (i : Z) : Prop :=
  exists x, elem a i x /\ (Qabs (x - B) <= rtol * Qabs B)%Q /\
    forall j y, elem a j y -> (Qabs (x - B) <= Qabs (y - B))%Q.
Definition none_within (a : list Q) (rtol B : Q) : Prop :=
  forall j y, elem a j y -> (rtol * Qabs B < Qabs (y - B))%Q.

(** the list of matches: one entry per matched element of [b], in the order of [b] *)
Inductive matches (a : list Q) (rtol : Q) : list Q -> list Z -> Prop :=
| ma_nil : matches a rtol [] []
| ma_hit B b i ind : nearest_within a rtol B i -> matches a rtol b ind -> matches a rtol (B :: b) (i :: ind)
| ma_miss B b ind : none_within a rtol B -> matches a rtol b ind -> matches a rtol (B :: b) ind.
