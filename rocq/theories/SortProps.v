(** Array sort and nearest-value mapping: properties C16, C17. *)
From Coq Require Import ZArith List Bool QArith_base QArith Qabs Permutation Lqa Lia.
From Verif Require Import SortModel SortSpec SortProofs MapToProofs.
Import ListNotations.
Open Scope Z_scope.

(** C16: the sort ends for every array, permutes the (value, position) pairs, orders the values,
    and is stable unless the input is non-increasing, in which case it is exactly reversed. *)
Theorem C16_sort : forall a, exists s, sort a = Some s /\
  Permutation s (with_positions a) /\ nondecreasing s /\
  (stable s \/ (nonincreasing a /\ s = rev (with_positions a))).
Proof. exact sort_spec. Qed.
Print Assumptions C16_sort.

Example C16_example :
  sort [3#1; 1#1; 2#1; 1#1]%Q = Some [((1#1)%Q, 1); ((1#1)%Q, 3); ((2#1)%Q, 2); ((3#1)%Q, 0)] /\
  sort [2#1; 2#1; 1#1]%Q = Some [((1#1)%Q, 2); ((2#1)%Q, 1); ((2#1)%Q, 0)].
Proof. split; reflexivity. Qed.

(** C17: on an axis with distinct values, every element of [b] is mapped to a nearest element of
    [a] when that lies within the tolerance, and to -1 exactly when no element of [a] does. *)
Theorem C17_map_to_c : forall a b rtol, distinct a ->
  exists ind, map_to_c a b rtol = Some ind /\
    Forall2 (fun B i => (0 <= i /\ nearest_within a rtol B i) \/ (i = -1 /\ none_within a rtol B)) b ind.
Proof. exact map_to_c_spec. Qed.
Print Assumptions C17_map_to_c.

(** the Python function: the matches only, in the order of [b] *)
Theorem C17_map_to_partial : forall a b rtol, distinct a ->
  exists ind, map_to a b rtol = Some ind /\ matches a rtol b ind.
Proof. exact map_to_spec. Qed.
Print Assumptions C17_map_to_partial.

Example C17_example : map_to [30#1; 10#1; 20#1]%Q [20#1; 11#1; 30#1; 10#1]%Q (1#100)%Q = Some [2; 0; 1].
Proof. reflexivity. Qed.

(** When [a] repeats a value the search sticks at the first copy: 2 is in [a] but is not found. *)
Theorem C17_duplicates_refuted : exists a b rtol, (0 <= rtol)%Q /\
  nearest_within a rtol (2#1) 2 /\ In (2#1)%Q b /\ map_to a b rtol = Some [].
Proof.
  exists [1#1; 1#1; 2#1]%Q, [2#1]%Q, (1#100000)%Q. split; [lra|]. split; [|split; [now left|reflexivity]].
  exists (2#1)%Q. split; [split; [lia|reflexivity]|]. split; [vm_compute; congruence|].
  intros j y _. setoid_replace ((2 # 1) - (2 # 1))%Q with 0%Q by reflexivity. apply Qabs_nonneg.
Qed.
Print Assumptions C17_duplicates_refuted.
