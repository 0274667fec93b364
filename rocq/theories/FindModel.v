(** Model of looking for variables in a collection of datasets: /repo/pygeode/formats/data_scanner.py:746-874 (DataInterface.find, have, find_best).
    Simplifications: a variable is an object of some type [V] in a dictionary of names (the axes come after the variables and are found as well: dataset.py:29-50); the pair of its name and shape, which find_best sorts by when
    nothing else decides, is coded as a number that keeps the order ([size]); ranks are exact numbers.  The functions for ranking get the list
    of the variables found (the documentation says: the dataset). *)
From Coq Require Import ZArith List Bool QArith_base String.
From Verif Require Import CalModel IndexModel ArrModel ViewModel CfModel.
Import ListNotations.
Open Scope Z_scope.

Section Find.
Context {V : Type} (size : V -> Q).
Definition dset := list (string * V).
(* 762-789 *)
Definition find (sets : list dset) (names : list string) (requirement : option (dset -> bool)) : list (list V) :=
  flat_map (fun d => if match requirement with Some r => r d | None => true end
                     then match sequence (map (fun n => lookup n d) names) with Some l => [l] | None => [] end
                     else []) sets.
(* 792-798 *)
Definition have (sets : list dset) (name : string) : bool := existsb (fun d => match lookup name d with Some _ => true | None => false end) sets.

(* the order of lists of numbers *)
Fixpoint lex_le (a b : list Q) : bool :=
  match a, b with
  | [], _ => true
  | _ :: _, [] => false
  | x :: a, y :: b => if negb (Qle_bool y x) then true else Qle_bool x y && lex_le a b
  end.
(* sorted(): stable *)
Fixpoint insert {A} (le : A -> A -> bool) (x : A) (l : list A) : list A :=
  match l with [] => [x] | y :: t => if le x y then x :: l else y :: insert le x t end.
Definition sorted {A} (le : A -> A -> bool) (l : list A) : list A := fold_right (insert le) [] l.
(* 836-838 *)
Definition domain_size (c : list V) : list Q := sorted Qle_bool (map size c).
(* 841-857.  None: no criterion *)
Definition rank (maximize minimize : option (list (list V -> Q))) : option (list V -> list Q) :=
  match maximize, minimize with
  | Some fs, _ => Some (fun c => map (fun f => (- f c)%Q) fs)
  | None, Some fs => Some (fun c => map (fun f => f c) fs)
  | None, None => None
  end.
(* 801-874.  None: KeyError *)
Definition find_best (sets : list dset) (names : list string) (requirement : option (dset -> bool)) (maximize minimize : option (list (list V -> Q))) : option (list V) :=
  let candidates := sorted (fun a b => lex_le (domain_size b) (domain_size a)) (find sets names requirement) in
  let candidates := match rank maximize minimize with
                    | Some k => sorted (fun a b => lex_le (k a) (k b)) candidates
                    | None => candidates
                    end in
  hd_error candidates.
End Find.
