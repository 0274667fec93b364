(** numpy arrays and the numpy operations used by /repo/pygeode/view.py and the variable classes.
    An array is a shape and a total function from positions to values (meaningless outside the shape).
    numpy itself is not part of /repo: these definitions state what the code relies on. *)
From Coq Require Import ZArith List Bool.
From Verif Require Import IndexModel IndexSpec.
Import ListNotations.
Open Scope Z_scope.

Record arr (V : Type) := Arr { shape : list Z; val : list Z -> V }.
Arguments Arr {V}. Arguments shape {V}. Arguments val {V}.

(** l[i] for 0 <= i *)
Definition znth (l : list Z) (i : Z) : Z := nth (Z.to_nat i) l 0.

(** the positions an index selects on an axis of length [n] (numpy basic slicing; integer lists
    may be negative, an index outside [-n, n) raises) *)
Definition np_index (s : sel) (n : Z) : option (list Z) :=
  match s with
  | SSlice s => if eff_step s =? 0 then None else Some (arange (eff_start s n) (eff_stop s n) (eff_step s))
  | SList l => if forallb (fun i => (- n <=? i) && (i <? n)) l then Some (map (from_end n) l) else None
  | SInt _ => None      (* reduces the dimension; not used on this path *)
  end.

(** a[:, ..., ind, ...] with the index list [ind] on axis [i] *)
Definition take_axis {V} (a : arr V) (i : nat) (ind : list Z) : arr V :=
  Arr (set_at (shape a) i (zlen ind)) (fun p => val a (set_at p i (znth ind (nth i p 0)))).

(* view.py:256-258  for i,sl in enumerate(slices): values = values[tuple([slice(None)]*i + [sl])] *)
Fixpoint apply_slices {V} (i : nat) (sls : list sel) (a : arr V) : option (arr V) :=
  match sls with
  | [] => Some a
  | sl :: t =>
    match np_index sl (nth i (shape a) 0) with
    | None => None
    | Some ind => apply_slices (S i) t (take_axis a i ind)
    end
  end.

(** inds[0][p0], inds[1][p1], ... *)
Fixpoint gather (inds : list (list Z)) (p : list Z) : list Z :=
  match inds, p with
  | l :: ls, x :: xs => znth l x :: gather ls xs
  | _, _ => []
  end.

(** a[d0, d1, ...] with open-mesh ("outer") index arrays *)
Definition outer_index {V} (a : arr V) (inds : list (list Z)) : arr V :=
  Arr (map zlen inds) (fun p => val a (gather inds p)).

(** out[outsl] = block (same shape), outsl a list of (start, stop) *)
Definition inside (outsl : list (Z * Z)) (p : list Z) : bool :=
  forallb (fun '((i, j), x) => (i <=? x) && (x <? j)) (combine outsl p).
Definition assign {V} (a : arr V) (outsl : list (Z * Z)) (block : arr V) : arr V :=
  Arr (shape a) (fun p => if inside outsl p then val block (map (fun '((i, _), x) => x - i) (combine outsl p)) else val a p).

Fixpoint index_of (j : nat) (l : list nat) : nat :=
  match l with [] => 0 | x :: t => if Nat.eqb x j then 0 else S (index_of j t) end.

Definition is_perm (n : nat) (l : list nat) : bool :=
  Nat.eqb (length l) n && forallb (fun j => existsb (Nat.eqb j) l) (seq 0 n).

(** a.transpose(perm): output axis k is input axis perm[k]; ValueError unless perm is a permutation *)
Definition transpose {V} (a : arr V) (perm : list nat) : option (arr V) :=
  let n := length (shape a) in
  if is_perm n perm then
    Some (Arr (map (fun j => nth j (shape a) 0) perm)
              (fun p => val a (map (fun j => nth (index_of j perm) p 0) (seq 0 n))))
  else None.

(** row-major order *)
Definition prod (s : list Z) : Z := fold_right Z.mul 1 s.
Fixpoint ravel (s p : list Z) : Z :=
  match s, p with
  | _ :: s, x :: p => x * prod s + ravel s p
  | _, _ => 0
  end.
Fixpoint unravel (s : list Z) (k : Z) : list Z :=
  match s with
  | [] => []
  | _ :: s => k / prod s :: unravel s (k mod prod s)
  end.

(** a.reshape(s): same elements in row-major order; ValueError if the sizes differ *)
Definition reshape {V} (a : arr V) (s : list Z) : option (arr V) :=
  if prod s =? prod (shape a) then Some (Arr s (fun p => val a (unravel (shape a) (ravel s p)))) else None.
