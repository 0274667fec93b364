(** Model of the merging of attributes (/repo/pygeode/tools.py:113-134, /repo/pygeode/var.py:809-824)
    and of the arithmetic of progress bars (/repo/pygeode/progress.py:88-139; drawing is left out). *)
From Coq Require Import ZArith List Bool QArith_base Qminmax.
Import ListNotations.
Open Scope Z_scope.

(** a dictionary: keys (encoded as integers) and values, in the order of insertion *)
Section Dict.
Context {V : Type} (ne : V -> V -> bool).      (* x != y ; any(x != y) for arrays *)
Notation dict := (list (Z * V)).

Fixpoint lookup (k : Z) (d : dict) : option V :=
  match d with [] => None | (k', v) :: t => if k =? k' then Some v else lookup k t end.
(* d[k] = v *)
Fixpoint assign (k : Z) (v : V) (d : dict) : dict :=
  match d with [] => [(k, v)] | (k', v') :: t => if k =? k' then (k, v) :: t else (k', v') :: assign k v t end.
(* del d[k] *)
Fixpoint delete (k : Z) (d : dict) : dict :=
  match d with [] => [] | (k', v) :: t => if k =? k' then t else (k', v) :: delete k t end.
(* dict(pairs) *)
Definition dict_of (pairs : list (Z * V)) : dict := fold_left (fun d '(k, v) => assign k v d) pairs [].

(* tools.py:122-132  is the entry removed? *)
Fixpoint removed (k : Z) (v : V) (dicts : list dict) : bool :=
  match dicts with
  | [] => false
  | x :: t => match lookup k x with Some w => if ne w v then true else removed k v t | None => true end
  end.
(* tools.py:115-133  common_dict *)
Definition common_dict (dicts : list dict) : dict :=
  let d := dict_of (concat dicts) in
  fold_left (fun d '(k, v) => if removed k v dicts then delete k d else d) d d.
End Dict.

(* var.py:814-816  the name (or units) of a combined variable; the previous value is kept when
   list(set(...)) does not have exactly one element *)
Definition combine_name (names : list Z) (old : Z) : Z :=
  match nodup Z.eq_dec names with [s] => s | _ => old end.

(** *** progress bars *)
Record pbar := PBar { lower : Q; upper : Q; top : bool }.
(* progress.py:89-97 *)
Definition new_pbar : pbar := PBar 0 100 true.
(* progress.py:106-117  update: the value displayed, and whether the bar is finished *)
Definition displayed (b : pbar) (x : Q) : Q :=
  let dx := (upper b - lower b)%Q in
  let y := (lower b + dx * x / 100)%Q in
  Qmin (Qmax 0 y) 100.
Definition finishes (b : pbar) (x : Q) : bool := Qle_bool 100 (displayed b x) && top b.
(* progress.py:119-126  subset *)
Definition subset (b : pbar) (L U : Q) : pbar :=
  let dx := (upper b - lower b)%Q in
  PBar (lower b + dx * L / 100)%Q (lower b + dx * U / 100)%Q false.
(* progress.py:130  part *)
Definition part (b : pbar) (i n : Z) : pbar :=
  let each := (100 / inject_Z n)%Q in
  subset b (each * inject_Z i)%Q (each * (inject_Z i + 1))%Q.
