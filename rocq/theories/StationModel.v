(** Model of writing and reading non-coordinate axes (stations) with CF metadata: /repo/pygeode/formats/cfmeta.py:80-107, 190-243, 301-306, 347-352,
    379-380, 430-459, for one such axis and the variables of the data set.
    Simplifications: strings are ASCII or refused (numpy encodes as ASCII; the real decoder also reads UTF-8); attributes other than
    'coordinates' and 'ancillary_variables' are left out; [hasaxis] goes by the name of the axis; the names of the variables
    are already legal (fix_name: C51) and Dataset renames none of them (C56), which the theorems ask for; no custom axes. *)
From Coq Require Import ZArith List Bool QArith_base Ascii String.
From Verif Require Import CalModel TimeSearchModel IndexModel ArrModel AxisModel ClimModel ViewModel StencilModel CfModel.
Import ListNotations.
Open Scope Z_scope.

(** data of a variable: numbers (in one list), text, or rows of single characters, code 0 being none *)
Inductive adata := Num (l : list Q) | Text (l : list string) | Chars (l : list (list ascii)).
Record svar := SVar { v_name : string; v_dims : list string; v_data : adata; v_coords : option string; v_anc : option string }.
Definition has_dim (d : string) (v : svar) : bool := existsb (String.eqb d) (v_dims v).

(** ** strings *)
(* s.split() *)
Fixpoint words (s : string) : list string :=
  match s with
  | EmptyString => []
  | String a r => if is_space a then words r
                  else match r with
                       | String b _ => if is_space b then String a EmptyString :: words r
                                       else match words r with x :: l => String a x :: l | [] => [] end
                       | EmptyString => [String a EmptyString]
                       end
  end.
(* s.endswith(suf), and what is before it *)
Fixpoint unsuffix (suf s : string) : option string :=
  if String.eqb s suf then Some EmptyString
  else match s with EmptyString => None | String a r => option_map (String a) (unsuffix suf r) end.
Fixpoint chars (s : string) : list ascii := match s with EmptyString => [] | String a r => a :: chars r end.
Fixpoint text_of (l : list ascii) : string := match l with [] => EmptyString | a :: l => String a (text_of l) end.
Definition ascii_char (a : ascii) : bool := code a <? 128.

(** ** strings as rows of characters *)
(* cfmeta.py:85 *)
Definition longest (l : list string) : nat := fold_right (fun s m => Nat.max (String.length s) m) 0%nat l.
(* cfmeta.py:80-95.  None: no strings, only empty ones, or characters that are not ASCII *)
Definition encode_string_var (v : svar) : option svar :=
  match v_data v with
  | Text l =>
    let n := longest l in
    if (0 <? n)%nat && forallb (fun s => forallb ascii_char (chars s)) l
    then Some (SVar (v_name v ++ "_name") (v_dims v ++ [(v_name v ++ "_strlen")%string])
                 (Chars (map (fun s => chars s ++ repeat zero (n - String.length s)) l)) (v_coords v) (v_anc v))
    else None
  | _ => Some v
  end.
(* cfmeta.py:305 *)
Definition is_coded (v : svar) : bool :=
  match unsuffix "_name" (v_name v), v_data v, last (map Some (v_dims v)) None with
  | Some _, Chars _, Some d => match unsuffix "_strlen" d with Some _ => true | None => false end
  | _, _, _ => false
  end.
(* cfmeta.py:99-107; an element of type S1 that is 0 is the empty string *)
Definition decode_string_var (v : svar) : option svar :=
  let name := match unsuffix "_name" (v_name v) with Some n => n | None => v_name v end in
  match v_data v with
  | Chars rows => if forallb (forallb ascii_char) rows
                  then Some (SVar name (removelast (v_dims v)) (Text (map (fun r => text_of (filter (fun a => negb (Ascii.eqb a zero)) r)) rows)) None None)
                  else None
  | _ => Some v
  end.

(** ** the arrays of the axis *)
Definition arrays := list (string * adata).
(* auxasvar: axis.py:506-526 *)
Definition aux_var (axis : string) (kv : string * adata) : svar := SVar (fst kv) [axis] (snd kv) None None.
(* cfmeta.py:198-209 *)
Definition coord_names (aux : arrays) : list string := filter (fun k => match lookup k aux with Some _ => true | None => false end) ["lat"; "lon"]%string.
(* cfmeta.py:214-226.  "auxname in coordinates" looks for a piece of the text *)
Definition others (aux : arrays) : arrays := filter (fun kv => negb (contains (fst kv) (join (coord_names aux)))) aux.
(* cfmeta.py:190-243 *)
Definition encode_station (axis : string) (aux : arrays) (vars : list svar) : option (list svar) :=
  let coordinates := join (coord_names aux) in
  let anc := join (map fst (others aux)) in
  let mark v := if has_dim axis v
                then SVar (v_name v) (v_dims v) (v_data v) (if String.eqb coordinates "" then v_coords v else Some coordinates) (if String.eqb anc "" then v_anc v else Some anc)
                else v in
  let first := flat_map (fun k => match lookup k aux with Some d => [aux_var axis (k, d)] | None => [] end) (coord_names aux) in
  bind (sequence (map (fun kv => encode_string_var (aux_var axis kv)) (others aux))) (fun rest => Some (map mark vars ++ first ++ rest)).

(** ** reading *)
Inductive skind := SDummy | SNonCoord | SStation.
(* var.atts.get(..., '').split() *)
Definition listed (o : option string) : list string := match o with Some s => words s | None => [] end.
(* cfmeta.py:302-306, 347-352, 379-380, 430-459, for an axis without coordinates, whose name (without capitals) is not 'latitude', 'longitude' or
   'air_pressure'.  Result: the kind of axis, its arrays, and the variables left *)
Definition decode_station (axis : string) (vars : list svar) : option (skind * arrays * list svar) :=
  bind (sequence (map (fun v => if is_coded v then decode_string_var v else Some v) vars)) (fun vars =>
  let names := flat_map (fun v => if has_dim axis v then listed (v_coords v) ++ listed (v_anc v) else []) vars in
  let deps := filter (fun v => existsb (String.eqb (v_name v)) names && (match v_dims v with [d] => String.eqb axis d | _ => false end)) vars in
  let aux := fold_left (fun d v => put (v_name v) (v_data v) d) deps [] in
  let kind := if String.eqb (lower axis) "station" then SStation else match deps with [] => SDummy | _ => SNonCoord end in
  Some (kind, aux, filter (fun v => match lookup (v_name v) aux with Some _ => false | None => true end) vars)).
