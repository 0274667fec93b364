(** Model of what opening a file does with its arguments dimtypes, varlist and namemap: /repo/pygeode/formats/__init__.py:206-282.
    Not modelled: decoding of CF metadata (see CfModel.v; this is cfmeta=False), global attributes. *)
From Coq Require Import ZArith List Bool QArith_base String.
From Verif Require Import IndexModel IndexSpec ArrModel ViewModel AxisModel VarOpsModel StencilModel SelectModel DatasetModel DsMapModel DsNameModel.
Import ListNotations.
Open Scope Z_scope.

Section Final.
Context {V : Type} (N : naming) (env : axenv) (junk : list Z -> V) (enc : string -> Z).
Notation vobj := (vobj V).
Fixpoint entry {A} (n : string) (l : list (string * A)) : option A :=
  match l with [] => None | (m, x) :: l => if String.eqb m n then Some x else entry n l end.
(* an entry of dimtypes: an axis, or a class, a class with arguments, or a function, which make a new axis out of the old one
   (name and content; None: an exception) *)
Inductive dimtype := Given (b : axobj) | Built (f : axobj -> option (string * axis)).
(* formats/__init__.py:216-244: the replacements, for the axes of the dataset *)
Fixpoint replacements (dimtypes : list (string * dimtype)) (next : Z) (axes : list axobj) : option (list (string * axobj) * Z) :=
  match axes with
  | [] => Some ([], next)
  | a :: axes =>
      match entry (a_name a) dimtypes with
      | None => replacements dimtypes next axes
      | Some dt =>
          bind (match dt with Given b => Some (b, next) | Built f => option_map (fun '(n, x) => (MkAx next n x, next + 1)) (f a) end) (fun '(b, next) =>
          if axis_len (a_axis b) =? axis_len (a_axis a)
          then bind (replacements dimtypes next axes) (fun '(r, next) => Some ((a_name a, b) :: r, next))
          else None)
      end
  end.
(* varoperations.py:285-303, for one variable, with ignore_mismatch (dataset.py:725-734) and axis objects as replacements: whichever axis has the key
   as an alias; they keep their own names *)
Definition meant (axes : list axis) (axisdict : list (string * axobj)) (i : nat) (r : option axobj) : option axobj :=
  fold_left (fun r '(k, b) => match which_axis N axes k with Some j => if Nat.eqb i j then Some b else r | None => r end) axisdict r.
Definition replace_obj (axisdict : list (string * axobj)) (next : Z) (v : vobj) : option (option vobj * Z) :=
  let axes := map a_axis (v_axes v) in
  let objs := map (fun '(i, a) => match meant axes axisdict i None with Some b => b | None => a end) (combine (seq 0 (List.length axes)) (v_axes v)) in
  bind (replace_axes env junk (var_of v) (map a_axis objs)) (fun y => Some (Some (MkVar (v_name v) objs (var_source y)), next)).
(* formats/__init__.py:206-246 *)
Definition set_axistypes (next : Z) (ds : @dataset V) (dimtypes : list (string * dimtype)) : option (@dataset V) :=
  bind (replacements dimtypes next (ds_axes ds)) (fun '(axisdict, next) => ds_map env junk enc (replace_obj axisdict) next ds).
(** an identity not in use *)
Definition unused (ds : @dataset V) : Z := 1 + fold_right Z.max 0 (map a_id (flat_map v_axes (ds_vars ds))).
(* formats/__init__.py:259-282 *)
Definition finalize_open (next : Z) (ds : @dataset V) (dimtypes : list (string * dimtype)) (varlist : list string) (namemap : list (string * string)) : option (@dataset V) :=
  bind (match dimtypes with [] => Some ds | _ => set_axistypes next ds dimtypes end) (fun ds =>
  bind (match varlist with [] => Some ds | _ => whitelist env junk enc (unused ds) ds varlist end) (fun ds =>
  match namemap with
  | [] => Some ds
  | _ => bind (ds_rename env junk enc (unused ds) ds namemap) (fun ds => ds_rename_axes N env junk enc namemap (unused ds) ds)
  end)).
End Final.
