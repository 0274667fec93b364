(** Model of operations on all variables of a dataset: /repo/pygeode/dataset.py:496-529 Dataset.map, 551-578 __call__, 533-544 load.
    A function of a variable may create new axis objects; [next] is an identity not in use yet. *)
From Coq Require Import ZArith List Bool QArith_base String.
From Verif Require Import IndexModel IndexSpec ArrModel ViewModel AxisModel VarOpsModel ReduceModel StencilModel SelectModel DatasetModel.
Import ListNotations.
Open Scope Z_scope.

Section DsMap.
Context {V : Type} (N : naming) (env : axenv) (junk : list Z -> V) (enc : string -> Z).
Notation vobj := (vobj V).
(* dataset.py:526-527  varlist = [f(v) for v in self.vars]; those that are None are left out *)
Fixpoint map_vars (f : Z -> vobj -> option (option vobj * Z)) (next : Z) (vars : list vobj) : option (list vobj * Z) :=
  match vars with
  | [] => Some ([], next)
  | v :: t => bind (f next v) (fun '(w, next) => bind (map_vars f next t) (fun '(ws, next) =>
              Some (match w with Some w => w :: ws | None => ws end, next)))
  end.
(* dataset.py:526-529 *)
Definition ds_map (f : Z -> vobj -> option (option vobj * Z)) (next : Z) (ds : @dataset V) : option (@dataset V) :=
  bind (map_vars f next (ds_vars ds)) (fun '(vars, next) => make_dataset env junk enc next vars).

(* varoperations.py:525 axes = [a.slice[s] ...]; axis.py:357-378: the axis object itself if its values do not change, else a new one with its name *)
Fixpoint slice_objs (next : Z) (axes : list axobj) (inds : list (list Z)) : list axobj * Z :=
  match axes, inds with
  | a :: axes, l :: inds =>
      if qlist_eqb (pick 0%Q (axis_vals (a_axis a)) l) (axis_vals (a_axis a))
      then let '(objs, next) := slice_objs next axes inds in (a :: objs, next)
      else let '(objs, next') := slice_objs (next + 1) axes inds in (MkAx next (a_name a) (axis_take env (a_axis a) l) :: objs, next')
  | _, _ => ([], next)
  end.
(* var.py:386-427 __call__ with ignore_mismatch: keywords left over are ignored.  Means and squeezes (letters m and s) are not modelled here: None *)
Definition select_obj (kw : list (string * request)) (next : Z) (v : vobj) : option (option vobj * Z) :=
  match prefixes N (map a_axis (v_axes v)) kw [] [] [] with
  | Some ([], [], new) =>
      bind (get_slices N (map a_axis (v_axes v)) new) (fun '(sls, _) =>
      bind (sequence (map (fun '(a, s) => slice_index s (axis_len (a_axis a))) (combine (v_axes v) sls))) (fun inds =>
      bind (slice_var env junk (var_of v) (map Sl sls)) (fun y =>
      let '(objs, next) := slice_objs next (v_axes v) inds in
      Some (Some (MkVar (v_name v) objs (var_source y)), next))))
  | _ => None
  end.
(* dataset.py:551-578  ds(name=value, ...) *)
Definition ds_select (kw : list (string * request)) (next : Z) (ds : @dataset V) : option (@dataset V) := ds_map (select_obj kw) next ds.
(* dataset.py:533-544 *)
Definition load_obj (next : Z) (v : vobj) : option (option vobj * Z) :=
  bind (ReduceModel.load env (var_of v) junk) (fun y => Some (Some (MkVar (v_name v) (v_axes v) (var_source y)), next)).
Definition ds_load (next : Z) (ds : @dataset V) : option (@dataset V) := ds_map load_obj next ds.
End DsMap.
