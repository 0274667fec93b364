(** Model of reading a variable that is spread over scanned files: /repo/pygeode/formats/data_scanner.py:292-344, 676-737.
    Simplifications: the values of an axis (with their auxiliary values) are coded as integers; the caches of axes are left out;
    that View.get finds the elements of a variable by their coordinates (C15) is taken for granted: the data of a file are a function of the coordinates. *)
From Coq Require Import ZArith List Bool.
From Verif Require Import IndexModel DomainModel.
Import ListNotations.
Open Scope Z_scope.

Definition at_ (l : list Z) (i : nat) : Z := nth i l 0.
(** ** np.searchsorted: bisection, starting where the last key was found *)
Fixpoint bisect (fuel : nat) (arr : list Z) (key : Z) (lo hi : nat) : nat * nat :=
  match fuel with
  | 0%nat => (lo, hi)
  | S f => if Nat.ltb lo hi then
             let mid := (lo + Nat.div2 (hi - lo))%nat in
             if at_ arr mid <? key then bisect f arr key (S mid) hi else bisect f arr key lo mid
           else (lo, hi)
  end.
Fixpoint search_keys (arr : list Z) (last : Z) (lo hi : nat) (keys : list Z) : list nat :=
  match keys with
  | [] => []
  | k :: t =>
    let n := List.length arr in
    let '(lo, hi) := if last <? k then (lo, n) else (0%nat, if Nat.ltb hi n then S hi else n) in
    let '(lo, hi) := bisect (S n) arr k lo hi in
    lo :: search_keys arr k lo hi t
  end.
Definition searchsorted (arr keys : list Z) : list nat := search_keys arr (hd 0 keys) 0 (List.length arr) keys.

(** ** axes in common *)
(* data_scanner.py:301-304 *)
Definition reversed (a : list Z) : bool := match a with x :: y :: _ => y <? x | _ => false end.
(* data_scanner.py:261-290, 292-334, 337-344 _settify_axis, _unsettify_axis, _get_axis_intersection *)
Definition intersection (a1 a2 : list Z) : list Z :=
  let v := fold_right insert [] (inter a1 a2) in if reversed a1 then rev v else v.

(** ** one axis: the elements of the requested axis that the file has, and where they are in the part read from it *)
(* data_scanner.py:705-718 *)
Definition found (a1 sub : list Z) : list (nat * nat) :=
  filter (fun '(i, r) => Nat.ltb r (List.length sub) && (at_ sub r =? at_ a1 i)) (combine (seq 0 (List.length a1)) (searchsorted sub a1)).
Definition mask (a1 sub : list Z) : list nat := map fst (found a1 sub).
Definition reorder (a1 sub : list Z) : list nat := map snd (found a1 sub).
Definition is_list (s : sel) : bool := match s with SList _ => true | _ => false end.
Fixpoint increasing (l : list nat) : bool := match l with x :: ((y :: _) as t) => Nat.leb x y && increasing t | _ => true end.
Definition irregular (l : list nat) : bool := is_list (simplify (map Z.of_nat l)).
Definition irregular_reorder (l : list nat) : bool := negb (increasing l) || irregular l.

Section Values.
Context {V : Type}.
Record file := File { f_axes : list (list Z); f_data : list Z -> V }.
Definition subaxes (req : list (list Z)) (f : file) : list (list Z) := map (fun '(a1, a2) => intersection a1 a2) (combine req (f_axes f)).
Definition count {A} (p : A -> bool) (l : list A) : nat := List.length (filter p l).
Fixpoint lookup (i : nat) (l : list (nat * nat)) : option nat := match l with [] => None | (j, r) :: t => if Nat.eqb i j then Some r else lookup i t end.
Fixpoint lookups (idx : list nat) (ls : list (list (nat * nat))) : option (list nat) :=
  match idx, ls with
  | [], [] => Some []
  | i :: idx, l :: ls => match lookup i l, lookups idx ls with Some r, Some rs => Some (r :: rs) | _, _ => None end
  | _, _ => None
  end.
(* data_scanner.py:700-731: out[mask] = chunk[reorder]; None = the assertion on advanced indexing *)
Definition read_file (req : list (list Z)) (f : file) (out : list nat -> option V) : option (list nat -> option V) :=
  let subs := subaxes req f in
  if existsb is_empty subs then Some out
  else let pairs := combine req subs in
    if Nat.ltb 1 (count (fun '(a1, s) => irregular_reorder (reorder a1 s)) pairs) || Nat.ltb 1 (count (fun '(a1, s) => irregular (mask a1 s)) pairs) then None
    else let chunk := fun idx => f_data f (map (fun '(s, r) => at_ s r) (combine subs idx)) in
      Some (fun idx => match lookups idx (map (fun '(a1, s) => found a1 s) pairs) with Some rs => Some (chunk rs) | None => out idx end).
(* data_scanner.py:690-737  _DataVar.getview; None as a value is NaN *)
Fixpoint read_files (req : list (list Z)) (fs : list file) (out : list nat -> option V) : option (list nat -> option V) :=
  match fs with
  | [] => Some out
  | f :: t => match read_file req f out with Some out => read_files req t out | None => None end
  end.
Definition getview (req : list (list Z)) (fs : list file) : option (list nat -> option V) := read_files req fs (fun _ => None).
End Values.
Arguments file : clear implicits.
