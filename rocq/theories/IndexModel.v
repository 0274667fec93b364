(** Model of the index handling of /repo/pygeode/view.py: expand, simplify, contiguate,
    View.loop_contiguous, View.loop_mem.  numpy int32 indices are unbounded Z. *)
From Coq Require Import ZArith List Bool.
Import ListNotations.
Open Scope Z_scope.

(** Python slice(start, stop, step); [None] components are absent *)
Record slice := Slice { s_start : option Z; s_stop : option Z; s_step : option Z }.

(** what can be used to index one axis: a slice, an integer, a list/array of integers *)
Inductive sel := SSlice (s : slice) | SInt (i : Z) | SList (l : list Z).

(** np.arange(start, stop, step), step <> 0 *)
Definition arange (start stop step : Z) : list Z :=
  let n := if 0 <? step then (stop - start + step - 1) / step
           else (start - stop - step - 1) / (- step) in
  map (fun k => start + Z.of_nat k * step) (seq 0 (Z.to_nat n)).

(* view.py:12-40  expand.  None = "assert step != 0" *)
Definition expand (ind : sel) (upper_bound : Z) : option (list Z) :=
  match ind with
  | SList l => Some l
  | SInt i => Some [i]
  | SSlice (Slice start stop step) =>
    let step := match step with None => 1 | Some s => s end in
    if step =? 0 then None else
    let start := match start with
                 | None => if 0 <? step then 0 else upper_bound - 1
                 | Some s => s
                 end in
    let start := if start <? 0 then start + upper_bound else start in
    let stop := match stop with
                | None => if 0 <? step then upper_bound else -1
                | Some s => if s <? 0 then s + upper_bound else s
                end in
    Some (arange start stop step)
  end.

(** np.diff *)
Fixpoint diff (l : list Z) : list Z :=
  match l with
  | x :: ((y :: _) as t) => (y - x) :: diff t
  | _ => []
  end.

(* view.py:43-63  simplify.  [np.unique(np.diff(ind))] has length 1 iff all differences
   are equal (and there is at least one). *)
Definition simplify (ind : list Z) : sel :=
  match ind with
  | [i] => SSlice (Slice (Some i) (Some (i + 1)) (Some 1))
  | _ =>
    match diff ind with
    | [] => SList ind
    | d :: ds =>
      if negb (forallb (Z.eqb d) ds) || (d =? 0) then SList ind
      else let stop := last ind 0 + d in
           SSlice (Slice (Some (hd 0 ind)) (if stop <? 0 then None else Some stop) (Some d))
    end
  end.

(** np.where(delt != 1)[0] + 1, counting from position [k] *)
Fixpoint jumps (k : Z) (delt : list Z) : list Z :=
  match delt with
  | [] => []
  | d :: t => if d =? 1 then jumps (k + 1) t else (k + 1) :: jumps (k + 1) t
  end.

(* view.py:66-77  contiguate: the slices as (start, stop) pairs *)
Definition contiguate (ind : list Z) : list (Z * Z) :=
  let stops := jumps 0 (diff ind) ++ [Z.of_nat (length ind)] in
  let starts := 0 :: removelast stops in
  combine starts stops.

(** itertools.product: the last factor varies fastest *)
Fixpoint product {A} (ls : list (list A)) : list (list A) :=
  match ls with
  | [] => [[]]
  | l :: t => flat_map (fun x => map (cons x) (product t)) l
  end.

(** numpy l[i:j] for 0 <= i <= j *)
Definition subrange {A} (l : list A) (i j : Z) : list A :=
  firstn (Z.to_nat j - Z.to_nat i) (skipn (Z.to_nat i) l).

(* view.py:456-458  start / count of one axis; None = the piece did not simplify to a slice
   with both ends (the code would then produce a non-scalar start) *)
Definition start_count (s : sel) : option (Z * Z) :=
  match s with
  | SSlice (Slice (Some a) (Some b) _) => Some (a, b - a)
  | _ => None
  end.

Fixpoint sequence {A} (l : list (option A)) : option (list A) :=
  match l with
  | [] => Some []
  | None :: _ => None
  | Some x :: t => match sequence t with Some r => Some (x :: r) | None => None end
  end.

(* view.py:437-459  View.loop_contiguous: list of (outsl, start, count) *)
Definition loop_contiguous (inds : list (list Z)) : option (list (list (Z * Z) * list Z * list Z)) :=
  let outslices := map contiguate inds in
  let inslices := map (fun '(ind, outsl) => map (fun '(i, j) => simplify (subrange ind i j)) outsl)
                      (combine inds outslices) in
  sequence (map (fun '(outsl, insl) =>
      match sequence (map start_count insl) with
      | Some sc => Some (outsl, map fst sc, map snd sc)
      | None => None
      end)
    (combine (product outslices) (product inslices))).

(** [input_indices[j:min(j+n,N)] for j in range(0,N,n)] *)
Definition split_axis (ind : list Z) (n : Z) : list (list Z) :=
  let N := Z.of_nat (length ind) in
  map (fun j => subrange ind j (Z.min (j + n) N)) (arange 0 N n).

Fixpoint set_at {A} (l : list A) (k : nat) (v : A) : list A :=
  match l, k with
  | [], _ => []
  | _ :: t, O => v :: t
  | x :: t, S k => x :: set_at t k v
  end.

(* view.py:513-522  the preserved axes *)
Fixpoint preserve_loop (inds : list (list Z)) (preserve : list nat) (maxsize : Z) (indices : list (list (list Z)))
  : Z * list (list (list Z)) :=
  match preserve with
  | [] => (maxsize, indices)
  | i :: t =>
    let ind := nth i inds [] in
    let N := Z.of_nat (length ind) in
    let indices := set_at indices i [ind] in
    let maxsize := if maxsize <? N then 1 else maxsize / N in
    preserve_loop inds t maxsize indices
  end.

(* view.py:527-536  the other axes, from last to first *)
Fixpoint others_loop (inds : list (list Z)) (others : list nat) (maxsize : Z) (indices : list (list (list Z)))
  : list (list (list Z)) :=
  match others with
  | [] => indices
  | i :: t =>
    let ind := nth i inds [] in
    let N := Z.of_nat (length ind) in
    let n := Z.min maxsize N in
    others_loop inds t (maxsize / n) (set_at indices i (split_axis ind n))
  end.

(* view.py:491-541  View.loop_mem: the integer indices of each yielded View.
   [preserve]: axis numbers; preserve=None is []. Division by zero (a zero-length axis) is outside
   the model: the theorems require non-empty axes. *)
Definition loop_mem (MAX_ARRAY_SIZE : Z) (inds : list (list Z)) (preserve : list nat) : list (list (list Z)) :=
  let indices := map (fun _ => []) inds in
  let '(maxsize, indices) := preserve_loop inds preserve MAX_ARRAY_SIZE indices in
  let others := filter (fun i => negb (existsb (Nat.eqb i) preserve)) (seq 0 (length inds)) in
  product (others_loop inds (rev others) maxsize indices).
