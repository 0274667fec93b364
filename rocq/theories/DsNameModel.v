(** Model of naming in datasets: /repo/pygeode/dataset.py:452-494 replace_vars, /repo/pygeode/formats/__init__.py:250-256 whitelist,
    /repo/pygeode/varoperations.py:436-486 rename_axes as a method of a dataset (dataset.py:726-737: applied to every variable with ignore_mismatch).
    Not modelled: global attributes. *)
From Coq Require Import ZArith List Bool QArith_base String.
From Verif Require Import IndexModel IndexSpec ArrModel ViewModel AxisModel VarOpsModel StencilModel SelectModel DatasetModel DsMapModel.
Import ListNotations.
Open Scope Z_scope.

Section DsName.
Context {V : Type} (N : naming) (env : axenv) (junk : list Z -> V) (enc : string -> Z).
Notation vobj := (vobj V).
(* dataset.py:488-494 *)
Fixpoint lookup_var (n : string) (l : list (string * vobj)) : option vobj :=
  match l with [] => None | (m, x) :: l => if String.eqb m n then Some x else lookup_var n l end.
Definition ds_replace (next : Z) (ds : @dataset V) (vardict : list (string * vobj)) : option (@dataset V) :=
  make_dataset env junk enc next (map (fun v => match lookup_var (v_name v) vardict with Some w => w | None => v end) (ds_vars ds)).
(* formats/__init__.py:250-256: vardict holds the last variable of a name *)
Definition named_var (ds : @dataset V) (n : string) : option vobj := find (fun v => String.eqb (v_name v) n) (List.rev (ds_vars ds)).
Definition whitelist (next : Z) (ds : @dataset V) (varlist : list string) : option (@dataset V) :=
  make_dataset env junk enc next (flat_map (fun n => match named_var ds n with Some v => [v] | None => [] end) varlist).
(* varoperations.py:482-486, 285-301: for each name in turn, the axis it means gets the new name; the last one remains *)
Definition new_name (axes : list axis) (namemap : list (string * string)) (i : nat) : option string :=
  fold_left (fun r '(n1, n2) => match which_axis N axes n1 with Some j => if Nat.eqb i j then Some n2 else r | None => r end) namemap None.
Fixpoint rename_objs (next : Z) (axes : list axobj) (targets : list (option string)) : list axobj * Z :=
  match axes, targets with
  | a :: axes, t :: targets =>
      match t with
      | Some n => let '(objs, next') := rename_objs (next + 1) axes targets in (MkAx next n (rename_axis enc n (a_axis a)) :: objs, next')
      | None => let '(objs, next') := rename_objs next axes targets in (a :: objs, next')
      end
  | _, _ => ([], next)
  end.
Definition rename_axes_obj (namemap : list (string * string)) (next : Z) (v : vobj) : option (option vobj * Z) :=
  let axes := map a_axis (v_axes v) in
  let '(objs, next') := rename_objs next (v_axes v) (map (new_name axes namemap) (seq 0 (List.length axes))) in
  bind (replace_axes env junk (var_of v) (map a_axis objs)) (fun y => Some (Some (MkVar (v_name v) objs (var_source y)), next')).
Definition ds_rename_axes (namemap : list (string * string)) (next : Z) (ds : @dataset V) : option (@dataset V) := ds_map env junk enc (rename_axes_obj namemap) next ds.
End DsName.
