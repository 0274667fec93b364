(** Model of /repo/pygeode/dataset.py: how a dataset names its variables and axes, and finds them by name.
    An axis object is its identity (Python's id), its name and its content; [next] is an identity not in use yet.
    Attributes and warnings are left out. *)
From Coq Require Import ZArith List Bool String Ascii DecimalString.
From Verif Require Import IndexModel IndexSpec ArrModel ViewModel AxisModel VarOpsModel.
Import ListNotations.
Open Scope Z_scope.
Open Scope list_scope.

Record axobj := MkAx { a_id : Z; a_name : string; a_axis : axis }.
Record vobj (V : Type) := MkVar { v_name : string; v_axes : list axobj; v_source : source axis V }.
Arguments MkVar {V}. Arguments v_name {V}. Arguments v_axes {V}. Arguments v_source {V}.
Definition var_of {V} (v : vobj V) : var axis V := Var (map a_axis (v_axes v)) (v_source v).

(** "%02d" % n *)
Definition fmt02 (n : nat) : string :=
  let s := NilEmpty.string_of_uint (Nat.to_uint n) in if Nat.ltb n 10 then String "0"%char s else s.
Definition mem (s : string) (l : list string) : bool := existsb (String.eqb s) l.
(* dataset.py:122-123, 176-177  while newname in names: newname += 'x'.  At most as many times as there are names. *)
Fixpoint avoid (fuel : nat) (taken : list string) (s : string) : string :=
  if mem s taken then match fuel with O => s | S f => avoid f taken (s ++ "x")%string end else s.
Definition fresh (taken : list string) (old : string) (i : nat) : string := avoid (List.length taken) taken (old ++ fmt02 i)%string.

(** ** axes *)
(* dataset.py:655-678 axis_name_clumping, one axis.  The dictionary in the order of insertion. *)
Definition namedict := list (string * list (list axobj)).
Fixpoint join_family (a : axobj) (eqlist : list (list axobj)) : list (list axobj) :=
  match eqlist with
  | [] => [[a]]
  | e :: rest => match e with
                 | h :: _ => if axis_eq (a_axis a) (a_axis h) then (e ++ [a]) :: rest else e :: join_family a rest
                 | [] => e :: join_family a rest
                 end
  end.
Definition add_axis (a : axobj) (eqlist : list (list axobj)) : list (list axobj) :=
  if existsb (fun e => existsb (fun b => a_id a =? a_id b) e) eqlist then eqlist else join_family a eqlist.
Fixpoint clump1 (a : axobj) (d : namedict) : namedict :=
  match d with
  | [] => [(a_name a, add_axis a [])]
  | (n, eqlist) :: d => if String.eqb (a_name a) n then (n, add_axis a eqlist) :: d else (n, eqlist) :: clump1 a d
  end.
Definition clump (axes : list axobj) : namedict := fold_left (fun d a => clump1 a d) axes [].

(* Axis.rename; the content holds the name too (as a number, [enc]) *)
Definition rename_axis (enc : string -> Z) (n : string) (a : axis) : axis :=
  match a with Coord c => Coord (MkCoord (c_kind c) (c_class c) (enc n) (c_vals c) (c_aux c) (c_atts c) (c_rtol c)) | _ => a end.
(* dataset.py:119-128  the families with this name, numbered from i *)
Fixpoint rename_eqs (enc : string -> Z) (taken : list string) (old : string) (i : nat) (next : Z) (eqlist : list (list axobj)) : list (Z * axobj) :=
  match eqlist with
  | [] => []
  | e :: rest =>
      (match e with
       | h :: _ => let new := let n := fresh taken old (S i) in MkAx next n (rename_axis enc n (a_axis h)) in map (fun a => (a_id a, new)) e
       | [] => []
       end) ++ rename_eqs enc taken old (S i) (next + 1) rest
  end.
(* dataset.py:110-128  newaxes[id(a)] *)
Fixpoint rename_axes (enc : string -> Z) (taken : list string) (next : Z) (d : namedict) : list (Z * axobj) :=
  match d with
  | [] => []
  | (n, eqlist) :: d =>
      (match eqlist with
       | [h :: t] => map (fun a => (a_id a, h)) (h :: t)
       | _ => rename_eqs enc taken n 0%nat next eqlist
       end) ++ rename_axes enc taken (next + zlen eqlist) d
  end.
Definition new_axis (l : list (Z * axobj)) (a : axobj) : option axobj :=
  match find (fun '(i, _) => i =? a_id a) (rev l) with Some (_, b) => Some b | None => None end.

Section Dataset.
Context {V : Type} (env : axenv) (junk : list Z -> V) (enc : string -> Z).
Notation vobj := (vobj V).

(* dataset.py:130-135  one variable *)
Definition with_axes (l : list (Z * axobj)) (v : vobj) : option vobj :=
  match sequence (map (new_axis l) (v_axes v)) with
  | Some axes =>
      if forallb (fun '(a, b) => a_id a =? a_id b) (combine (v_axes v) axes) then Some v
      else match replace_axes env junk (var_of v) (map a_axis axes) with
           | Some y => Some (MkVar (v_name v) axes (var_source y))
           | None => None
           end
  | None => None
  end.

(* dataset.py:138-145  all axes, each object once *)
Fixpoint collect (seen : list Z) (axes : list axobj) : list axobj :=
  match axes with
  | [] => []
  | a :: t => if existsb (Z.eqb (a_id a)) seen then collect seen t else a :: collect (a_id a :: seen) t
  end.

(** ** variable names *)
(* dataset.py:153-158 *)
Definition default_name (n : string) : string := if String.eqb n ""%string then "var"%string else n.
Fixpoint occurrences (n : string) (l : list string) : nat :=
  match l with [] => 0%nat | m :: l => ((if String.eqb m n then 1 else 0) + occurrences n l)%nat end.
(* dataset.py:160-178  [count] = namecount *)
Fixpoint number_names (all : list string) (count : string -> nat) (l : list string) : list string :=
  match l with
  | [] => []
  | n :: l => if Nat.eqb (occurrences n all) 1 then n :: number_names all count l
              else let c := S (count n) in fresh all n c :: number_names all (fun m => if String.eqb m n then c else count m) l
  end.
Definition names (l : list string) : list string := let l := map default_name l in number_names l (fun _ => 0%nat) l.

Record dataset := MkDs { ds_vars : list vobj; ds_axes : list axobj }.
(* dataset.py:75-182 Dataset.__init__; Var.rename (varoperations.py:388-395) wraps the variable *)
Definition renamed_var (v : vobj) (n : string) : vobj :=
  if String.eqb n (v_name v) then v else MkVar n (v_axes v) (var_source (rename_var env junk (var_of v))).
Definition make_dataset (next : Z) (vars : list vobj) : option dataset :=
  let d := clump (flat_map v_axes vars) in
  match sequence (map (with_axes (rename_axes enc (map fst d) next d)) vars) with
  | Some vars => Some (MkDs (map (fun '(v, n) => renamed_var v n) (combine vars (names (map v_name vars)))) (collect [] (flat_map v_axes vars)))
  | None => None
  end.

(** ** lookup: the last one put into the dictionary under that name *)
Inductive item := AVar (v : vobj) | AnAxis (a : axobj).
Definition getitem (ds : dataset) (key : string) : option item :=
  match find (fun v => String.eqb (v_name v) key) (rev (ds_vars ds)) with
  | Some v => Some (AVar v)
  | None => match find (fun a => String.eqb (a_name a) key) (rev (ds_axes ds)) with Some a => Some (AnAxis a) | None => None end
  end.

(* dataset.py:305-368 remove *)
Definition ds_remove (next : Z) (ds : dataset) (varnames : list string) : option dataset :=
  if forallb (fun n => existsb (fun v => String.eqb (v_name v) n) (ds_vars ds)) varnames
  then make_dataset next (filter (fun v => negb (mem (v_name v) varnames)) (ds_vars ds)) else None.
(* dataset.py:377-437 add *)
Definition ds_add (next : Z) (ds : dataset) (vars : list vobj) : option dataset := make_dataset next (ds_vars ds ++ vars).
(* dataset.py:245-302 rename_vars *)
Fixpoint assoc (n : string) (l : list (string * string)) : option string :=
  match l with [] => None | (m, x) :: l => if String.eqb m n then Some x else assoc n l end.
Definition ds_rename (next : Z) (ds : dataset) (vardict : list (string * string)) : option dataset :=
  make_dataset next (map (fun v => match assoc (v_name v) vardict with Some n => MkVar n (v_axes v) (var_source (rename_var env junk (var_of v))) | None => v end) (ds_vars ds)).
End Dataset.
Arguments ds_vars {V}. Arguments ds_axes {V}. Arguments MkDs {V}.
