(** Model of the arguments of sorted(): /repo/pygeode/varoperations.py:182-271 and axis.py:258-290, 292-333. *)
From Coq Require Import ZArith List Bool QArith_base String.
From Verif Require Import IndexModel ArrModel ViewModel AxisModel VarOpsModel StencilModel SelectModel.
Import ListNotations.
Open Scope Z_scope.

Section SortCall.
Context {V : Type} (N : naming) (env : axenv) (junk : list Z -> V).
(** the sign of the axis's plotorder is negative (pressure and hybrid levels, unless changed) *)
Context (downward : axis -> bool).
(* varoperations.py:252-264: order[iaxis] = o, for positional arguments (0) and then keywords; a later entry for the same axis replaces the earlier one *)
Definition order_of (axes : list axis) (entries : list (string * Z)) (i : nat) : option Z :=
  fold_left (fun r '(k, o) => match which_axis N axes k with Some j => if Nat.eqb i j then Some o else r | None => r end) entries None.
(* varoperations.py:259, 190 *)
Definition valid_order (o : Z) : bool := (o =? 1) || (o =? 0) || (o =? -1).
(* varoperations.py:190 reverse = {1:False, 0:None, -1:True}[o]; axis.py:328-331 for None *)
Definition direction (a : axis) (o : Z) : bool := if o =? 0 then downward a else o <? 0.
(* varoperations.py:250-271; axes are given by name.  None: KeyError or AssertionError *)
Definition sort_call (x : var axis V) (pos : list string) (kw : list (string * Z)) : option (var axis V) :=
  let axes := var_axes x in
  let entries := map (fun k => (k, 0)) pos ++ kw in
  if forallb (fun '(k, o) => has_axis N axes k && valid_order o) entries
  then let order := match entries with
                    | [] => map (fun a => Some (direction a 0)) axes
                    | _ => map (fun '(i, a) => option_map (direction a) (order_of axes entries i)) (combine (seq 0 (List.length axes)) axes)
                    end in
       Some (sort_var env junk x order)
  else None.
End SortCall.
