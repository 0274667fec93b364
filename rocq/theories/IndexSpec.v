(** Vocabulary for the slicing and chunking properties. *)
From Coq Require Import ZArith List.
From Verif Require Import SortSpec IndexModel.
Import ListNotations.
Open Scope Z_scope.

(** Python's slice semantics (Python library reference, "sequence types"): the effective start and
    stop of a slice of a sequence of length [n]; negative values count from the end, and both
    are limited to the sequence. *)
Definition eff_step (s : slice) : Z := match s_step s with Some k => k | None => 1 end.
Definition limit (lo hi x : Z) : Z := Z.max lo (Z.min hi x).
Definition from_end (n x : Z) : Z := if x <? 0 then x + n else x.
Definition eff_start (s : slice) (n : Z) : Z :=
  match s_start s with
  | None => if 0 <? eff_step s then 0 else n - 1
  | Some x => if 0 <? eff_step s then limit 0 n (from_end n x) else limit (-1) (n - 1) (from_end n x)
  end.
Definition eff_stop (s : slice) (n : Z) : Z :=
  match s_stop s with
  | None => if 0 <? eff_step s then n else -1
  | Some x => if 0 <? eff_step s then limit 0 n (from_end n x) else limit (-1) (n - 1) (from_end n x)
  end.

(** [l] is the list of positions start, start+step, ... strictly before stop *)
Definition selects (s : slice) (n : Z) (l : list Z) : Prop :=
  eff_step s <> 0 /\
  forall k x, elem l k x <->
    0 <= k /\ x = eff_start s n + k * eff_step s /\
    (0 < eff_step s -> x < eff_stop s n) /\ (eff_step s < 0 -> eff_stop s n < x).

(** the same for any kind of index that does not reduce the dimension: a list of valid positions *)
Definition np_selects (s : sel) (n : Z) (l : list Z) : Prop :=
  match s with
  | SSlice s => selects s n l
  | SList ind => ind = l
  | SInt i => [i] = l
  end.

Definition in_range (n : Z) (l : list Z) : Prop := Forall (fun i => 0 <= i < n) l.

(** [p] is a position of an array whose axes have lengths [ns] *)
Definition position (ns : list Z) (p : list Z) : Prop := Forall2 (fun n i => 0 <= i < n) ns p.
Definition zlen {A} (l : list A) : Z := Z.of_nat (length l).

(** the number of elements of an index product *)
Definition size (inds : list (list Z)) : Z := fold_right (fun l a => zlen l * a) 1 inds.

(** a rectangular piece of an output array, one (start, stop) pair per axis, contains position [p] *)
Definition covers (outsl : list (Z * Z)) (p : list Z) : Prop :=
  Forall2 (fun ij x => fst ij <= x < snd ij) outsl p.

(** element [p] of an index product: [q] is the tuple inds[0][p0], inds[1][p1], ... *)
Inductive picks : list (list Z) -> list Z -> list Z -> Prop :=
| picks_nil : picks [] [] []
| picks_cons l ls x xs y ys : elem l x y -> picks ls xs ys -> picks (l :: ls) (x :: xs) (y :: ys).

(** the source position that goes to position [p] when a block read from [start] is stored at [outsl] *)
Inductive copied : list Z -> list (Z * Z) -> list Z -> list Z -> Prop :=
| copied_nil : copied [] [] [] []
| copied_cons s st i j os x xs ys : copied st os xs ys ->
    copied (s :: st) ((i, j) :: os) (x :: xs) (s + (x - i) :: ys).
