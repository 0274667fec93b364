(** Model of openall: one variable that is spread over several files. *)
From Coq Require Import ZArith List Bool.
From Verif Require Import IndexModel ArrModel ViewModel AxisModel VarOpsModel StencilModel ConcatModel.
Import ListNotations.
Open Scope Z_scope.

Section Open.
Context {V : Type} (env : axenv) (junk : list Z -> V) (named : list Z) (concat_name : Z).
(* formats/multifile.py:84-98  openall(files, sorted=True): the variables [xs] that the files contain, in the order of the files, are concatenated (dataset.py:684-720, concat.py:104-117),
   and the result is sorted (dataset.py:741-750 applies varoperations.py:182-271 to every variable); [order] = Some reverse for the axes that have an order.
   Simplified: the files have been opened, and one variable is looked at. *)
Definition open_all (sorted : bool) (order : list (option bool)) (xs : list (var axis V)) : option (var axis V) :=
  bind (concat env junk named concat_name xs None) (fun y => Some (if sorted then sort_var env junk y order else y)).
End Open.
