(** Model of the array-sorting and nearest-value search of /repo/pygeode/tools.c
    (msort, sort, map_to; lines 14-152) and its Python caller tools.map_to
    (tools.py:288-293).

    Doubles are exact rationals (no rounding, no NaN).  The two parallel C arrays
    [a] and [a_ind] are one list of (value, index) pairs. *)
From Coq Require Import ZArith List Bool QArith_base Qabs.
Import ListNotations.
Open Scope Z_scope.

(* tools.c:38-53  the merge loop: [l] = a[i..m1), [r] = a[j..na) *)
Fixpoint merge (l : list (Q * Z)) : list (Q * Z) -> list (Q * Z) :=
  fix mr (r : list (Q * Z)) : list (Q * Z) :=
    match l, r with
    | [], [] => []
    | x :: l', [] => x :: merge l' []
    | [], y :: r' => y :: mr r'
    | x :: l', y :: r' => if Qle_bool (fst x) (fst y) then x :: merge l' r else y :: mr r'
    end.

(* tools.c:16-65  msort.  [fuel] bounds the recursion depth; [None] = the assertion
   na >= 1 fails, or out of fuel (excluded by the theorems, which use fuel = na). *)
Fixpoint msort (fuel : nat) (a : list Q) (offset : Z) : option (list (Q * Z)) :=
  match fuel, a with
  | S fuel, [x] => Some [(x, offset)]
  | S fuel, _ :: _ :: _ =>
    let m1 := Nat.div (length a) 2 in
    match msort fuel (firstn m1 a) offset, msort fuel (skipn m1 a) (offset + Z.of_nat m1) with
    | Some l, Some r => Some (merge l r)
    | _, _ => None
    end
  | _, _ => None
  end.

(* tools.c:73-78  the two "already sorted" flags *)
Fixpoint flags (a : list Q) : bool * bool :=
  match a with
  | x :: ((y :: _) as t) =>
    let '(s, r) := flags t in
    if negb (Qle_bool x y) then (false, r)          (* a[k-1] > a[k] *)
    else if negb (Qle_bool y x) then (s, false)     (* a[k-1] < a[k] *)
    else (s, r)
  | _ => (true, true)
  end.

(* a_ind[k] = k *)
Fixpoint index_from (k : Z) (a : list Q) : list (Q * Z) :=
  match a with [] => [] | x :: t => (x, k) :: index_from (k + 1) t end.

(* tools.c:71-97  sort *)
Definition sort (a : list Q) : option (list (Q * Z)) :=
  let '(sorted, rsorted) := flags a in
  if sorted then Some (index_from 0 a)
  else if rsorted then Some (rev (index_from 0 a))
  else msort (length a) a 0.

(* tools.c:134-137  while (ai < na-1) if (fabs(a[ai+1]-B) < fabs(a[ai]-B)) ai++; else break;
   [cur] = element ai, [rest] = elements ai+1.. *)
Fixpoint advance (cur : Q * Z) (rest : list (Q * Z)) (B : Q) : (Q * Z) * list (Q * Z) :=
  match rest with
  | [] => (cur, rest)
  | x :: r =>
    if negb (Qle_bool (Qabs (fst cur - B)) (Qabs (fst x - B))) then advance x r B else (cur, rest)
  end.

(* indices[k] = v *)
Fixpoint set_nth {A} (l : list A) (k : nat) (v : A) : list A :=
  match l, k with
  | [], _ => []
  | _ :: t, O => v :: t
  | x :: t, S k => x :: set_nth t k v
  end.

(* tools.c:129-144  the loop over the sorted b *)
Fixpoint match_loop (cur : Q * Z) (rest b : list (Q * Z)) (rtol : Q) (indices : list Z) : list Z :=
  match b with
  | [] => indices
  | (B, bi) :: bs =>
    let '(cur, rest) := advance cur rest B in
    let indices := if Qle_bool (Qabs (fst cur - B)) (rtol * Qabs B)
                   then set_nth indices (Z.to_nat bi) (snd cur) else indices in
    match_loop cur rest bs rtol indices
  end.

(* tools.c:102-149  map_to *)
Definition map_to_c (a b : list Q) (rtol : Q) : option (list Z) :=
  match sort a, sort b with
  | Some sa, Some sb =>
    let indices := map (fun _ => -1) b in
    match sa with
    | [] => Some indices
    | cur :: rest => Some (match_loop cur rest sb rtol indices)
    end
  | _, _ => None
  end.

(* tools.py:288-293  map_to *)
Definition map_to (a b : list Q) (rtol : Q) : option (list Z) :=
  match map_to_c a b rtol with
  | Some ind => Some (filter (fun i => i >=? 0) ind)
  | None => None
  end.
