(** Model of /repo/pygeode/formats/cfmeta.py: encode_cf and decode_cf, for one axis of a dataset.
    Simplifications, valid for every definition in this file:
    - strings are ASCII; the regular expressions are written out as the (deterministic) greedy scanners they are;
    - attributes are strings; plot attributes, global attributes and the data of the variables are left out;
    - there are no add-on axes (custom_axes is empty), nothing is on the ignore list, and no variable carries
      'coordinates' or 'ancillary_variables' attributes (so there are no non-coordinate axes in the data set);
    - numbers are exact; None = an exception. *)
From Coq Require Import ZArith List Bool QArith_base Ascii String.
From Verif Require Import CalModel TimeSearchModel IndexModel ArrModel AxisModel ClimModel ViewModel StencilModel.
Import ListNotations.
Open Scope Z_scope.

(** ** strings *)
Definition code (a : ascii) : Z := Z.of_N (N_of_ascii a).
Definition between (lo hi : Z) (a : ascii) : bool := (lo <=? code a) && (code a <=? hi).
(* \d, [a-zA-Z], \s, and . (anything but a newline) *)
Definition is_digit := between 48 57.
Definition is_alpha (a : ascii) : bool := between 97 122 a || between 65 90 a.
Definition is_space (a : ascii) : bool := between 9 13 a || between 28 32 a.
Definition is_dot (a : ascii) : bool := negb (code a =? 10).

(* the longest prefix of characters that satisfy [p], and the rest *)
Fixpoint span (p : ascii -> bool) (s : string) : string * string :=
  match s with
  | EmptyString => (EmptyString, EmptyString)
  | String a r => if p a then let '(x, y) := span p r in (String a x, y) else (EmptyString, s)
  end.
(* s.startswith(p): the rest *)
Fixpoint strip (p s : string) : option string :=
  match p, s with
  | EmptyString, _ => Some s
  | String a p, String b s => if Ascii.eqb a b then strip p s else None
  | _, _ => None
  end.
(* p in s *)
Fixpoint contains (p s : string) : bool :=
  match strip p s with
  | Some _ => true
  | None => match s with EmptyString => false | String _ r => contains p r end
  end.
(* s.lower() *)
Definition lower_char (a : ascii) : ascii := if between 65 90 a then ascii_of_N (Z.to_N (code a + 32)) else a.
Fixpoint lower (s : string) : string :=
  match s with EmptyString => EmptyString | String a r => String (lower_char a) (lower r) end.
(* s.endswith(one character) *)
Fixpoint ends_in (a : ascii) (s : string) : bool :=
  match s with
  | EmptyString => false
  | String b EmptyString => Ascii.eqb a b
  | String _ r => ends_in a r
  end.
(* s.rstrip() *)
Fixpoint rstrip (s : string) : string :=
  match s with
  | EmptyString => EmptyString
  | String a r => match rstrip r with
                  | EmptyString => if is_space a then EmptyString else String a EmptyString
                  | r' => String a r'
                  end
  end.
(* s.split(' ') : the pieces between single blanks *)
Fixpoint split (s : string) : list string :=
  match s with
  | EmptyString => [EmptyString]
  | String a r => if code a =? 32 then EmptyString :: split r
                  else match split r with x :: l => String a x :: l | [] => [String a EmptyString] end
  end.

(** ** names: cfmeta.py:63-75.  None = the name is empty (IndexError). *)
Definition fix_char (a : ascii) : ascii := if between 97 122 a then a else if between 65 90 a then a else if between 48 57 a then a else "_"%char.
Fixpoint fix_chars (s : string) : string := match s with EmptyString => EmptyString | String a r => String (fix_char a) (fix_chars r) end.
Definition fix_name (s : string) : option string :=
  match fix_chars s with
  | EmptyString => None
  | String a r => Some (if is_digit a then String "_" (String a r) else String a r)
  end.

(** ** "%04i" % n *)
Definition digit (n : Z) : ascii := ascii_of_N (Z.to_N (48 + n)).
Fixpoint dec (fuel : nat) (n : Z) : string :=
  match fuel with
  | 0%nat => EmptyString
  | S f => let r := String (digit (n mod 10)) EmptyString in
           if n <? 10 then r else (dec f (n / 10) ++ r)%string
  end.
Definition decimal (n : Z) : string := dec (S (Z.to_nat (Z.log2 n))) n.
Fixpoint zeros (n : nat) : string := match n with 0%nat => EmptyString | S k => String (digit 0) (zeros k) end.
Definition pad (w : nat) (s : string) : string := (zeros (w - String.length s) ++ s)%string.
Definition fmt (w : nat) (n : Z) : string :=
  if n <? 0 then String "-"%char (pad (w - 1) (decimal (- n))) else pad w (decimal n).
(* int(s), for a string of digits *)
Fixpoint int_from (acc : Z) (s : string) : Z :=
  match s with EmptyString => acc | String a r => int_from (10 * acc + (code a - 48)) r end.
Definition int_of (s : string) : Z := int_from 0 s.

(** ** attributes: a dictionary *)
Definition dict := list (string * string).
Fixpoint lookup {A} (k : string) (d : list (string * A)) : option A :=
  match d with [] => None | (x, v) :: d => if String.eqb k x then Some v else lookup k d end.
Definition drop {A} (k : string) (d : list (string * A)) : list (string * A) := filter (fun '(x, _) => negb (String.eqb k x)) d.
(* d[k] = v *)
Fixpoint put {A} (k : string) (v : A) (d : list (string * A)) : list (string * A) :=
  match d with [] => [(k, v)] | (x, w) :: d => if String.eqb k x then (x, v) :: d else (x, w) :: put k v d end.
Definition dget (k other : string) (d : dict) : string := match lookup k d with Some v => v | None => other end.

(** ** writing the reference date: cfmeta.py:165-172 *)
Definition unit_name (u : CalModel.unit) : string :=
  match u with Seconds => "seconds" | Minutes => "minutes" | Hours => "hours" | Days => "days" end.
Definition units_text (u : CalModel.unit) (start : pdate) : string :=
  let s := get_dates start in
  (unit_name u ++ " since " ++ fmt 4 (year s) ++ "-" ++ fmt 2 (month s) ++ "-" ++ fmt 2 (day s) ++ " "
   ++ fmt 2 (hour s) ++ ":" ++ fmt 2 (minute s) ++ ":" ++ fmt 2 (second s))%string.
(* cfmeta.py:173-176 *)
Definition cal_name (c : cal) : string :=
  match c with Std => "standard" | C365 => "365_day" | C360 => "360_day" | Yearless => "none" end.

(** ** reading it *)
(* cfmeta.py:384-391.  The last test, _calendar in ('none'), looks for a piece of the string 'none'. *)
Definition read_calendar (s : string) : option cal :=
  let one_of l := existsb (String.eqb s) l in
  if one_of ["standard"; "gregorian"; "proleptic_gregorian"]%string then Some Std
  else if one_of ["365_day"; "noleap"; "365day"]%string then Some C365
  else if one_of ["360_day"; "360day"]%string then Some C360
  else if contains s "none" then Some Yearless
  else None.
(* letters, white space, the word since, white space, the rest of the line: cfmeta.py:393 *)
Definition match_since (s : string) : option (string * string) :=
  let '(res, r) := span is_alpha s in
  let '(w1, r) := span is_space r in
  bind (strip "since" r) (fun r =>
  let '(w2, r) := span is_space r in
  if String.eqb res "" || String.eqb w1 "" || String.eqb w2 "" then None
  else Some (res, fst (span is_dot r))).
(* digits, the character [sep] perhaps, the rest of the line: cfmeta.py:400, 401, 404, 405 *)
Definition match_number (sep : ascii) (s : string) : option (Z * string) :=
  let '(d, r) := span is_digit s in
  if String.eqb d "" then None
  else let r := match r with String a r' => if Ascii.eqb a sep then r' else r | _ => r end in
       Some (int_of d, fst (span is_dot r)).
(* digits, white space perhaps, the rest of the line: cfmeta.py:402 *)
Definition match_day (s : string) : option (Z * string) :=
  let '(d, r) := span is_digit s in
  if String.eqb d "" then None
  else Some (int_of d, fst (span is_dot (snd (span is_space r)))).
(* digits, the rest of the line: cfmeta.py:406 *)
Definition match_second (s : string) : option (Z * string) :=
  let '(d, r) := span is_digit s in
  if String.eqb d "" then None else Some (int_of d, fst (span is_dot r)).
(* if len(date) > 0: x, date = re.match(...).groups() *)
Definition field (m : string -> option (Z * string)) (other : Z) (s : string) : option (Z * string) :=
  if String.eqb s "" then Some (other, s) else m s.
(* cfmeta.py:398-409; float(second) is exact *)
Definition read_date (s : string) : option date :=
  let s := rstrip s in
  bind (field (match_number "-"%char) 0 s) (fun '(y, s) =>
  bind (field (match_number "-"%char) 1 s) (fun '(m, s) =>
  bind (field match_day 1 s) (fun '(d, s) =>
  let s := match s with String a r => if Ascii.eqb a "T"%char then r else s | _ => s end in
  bind (field (match_number ":"%char) 0 s) (fun '(h, s) =>
  bind (field (match_number ":"%char) 0 s) (fun '(mi, s) =>
  bind (match s with
        | String a _ => if Ascii.eqb a " "%char then Some (0, s) else match_second s
        | EmptyString => Some (0, s)
        end) (fun '(sec, _) =>
  Some (mkdate y m d h mi sec))))))).
(* cfmeta.py:393-396, and the test of CalendarTime.__init__ (timeaxis.py:411-412) *)
Definition read_unit (s : string) : option CalModel.unit :=
  let s := lower s in
  let s := if ends_in "s"%char s then s else (s ++ "s")%string in
  find (fun u => String.eqb (unit_name u) s) [Seconds; Minutes; Hours; Days].
Definition read_units (s : string) : option (CalModel.unit * date) :=
  bind (match_since s) (fun '(res, d) =>
  bind (read_date d) (fun start => bind (read_unit res) (fun u => Some (u, start)))).

(** ** time axes from values *)
Definition all_fields : mask := mkmask true true true true true true.
Definition no_year : mask := mkmask false true true true true true.
Section Time.
(** the Python class of each calendar *)
Context (tcls : cal -> class).

(* cls(values, startdate=startdate, units=res) with a complete start date: timeaxis.py:371-381, 411-416, 80-113 *)
Definition time_of_values (c : cal) (start : date) (u : CalModel.unit) (values : list Q) : option taxis :=
  bind (sequence (map (val_as_date c (mask_date all_fields start) u false) values)) (fun ps =>
  let dates := map get_dates ps in
  bind (sequence (map (axis_value c (mask_date all_fields start) u all_fields) dates)) (fun vals =>
  Some (MkTime (tcls c) c (mask_date all_fields start) u all_fields dates vals))).
(* timeutils.py:35-81  modify(taxis, exclude='year'), of an axis with all fields: the fields that the class allows
   (the yearless calendar has no months: timeaxis.py:1025) *)
Definition without_year (t : taxis) : option taxis :=
  let k := match t_cal t with Yearless => mkmask false false true true true true | _ => no_year end in
  let start := start_of (t_cal t) k (t_start t) in
  bind (sequence (map (axis_value (t_cal t) start (t_units t) k) (t_dates t))) (fun vals =>
  Some (MkTime (t_class t) (t_cal t) start (t_units t) k (t_dates t) vals)).
(* cfmeta.py:411-421 *)
Definition decode_time (c : cal) (units : string) (values : list Q) : option taxis :=
  bind (read_units units) (fun '(u, start) =>
  bind (time_of_values c start u values) (fun t =>
  if (year start =? 0) && forallb (fun d => year d =? 0) (t_dates t) then without_year t else Some t)).

(** ** axes *)
(** the classes of axis.py other than time axes and non-coordinate axes; a Coef counts as an Index *)
Inductive kind := KAxis | KNamed | KDummy | KX | KY | KLon | KLat | KSpectralM | KSpectralN
                | KZ | KHeight | KHybrid | KPres | KT | KFreq | KIndex.
Definition kind_eqb (a b : kind) : bool :=
  match a, b with
  | KAxis, KAxis | KNamed, KNamed | KDummy, KDummy | KX, KX | KY, KY | KLon, KLon | KLat, KLat | KSpectralM, KSpectralM
  | KSpectralN, KSpectralN | KZ, KZ | KHeight, KHeight | KHybrid, KHybrid | KPres, KPres | KT, KT | KFreq, KFreq | KIndex, KIndex => true
  | _, _ => false
  end.
(** what an axis holds: coordinates and further arrays, or times *)
Inductive content :=
| Points (k : kind) (values : list Q) (aux : list (string * list Q))
| Times (t : taxis).
Record caxis := CAxis { x_name : string; x_atts : dict; x_content : content }.
(** the one-dimensional variables (along the axis) that go with it *)
Definition extras := list (string * list Q).

(* isinstance(a, XAxis), ... *)
Definition is_x (k : kind) : bool := match k with KX | KLon | KSpectralN => true | _ => false end.
Definition is_y (k : kind) : bool := match k with KY | KLat | KSpectralM => true | _ => false end.
Definition is_z (k : kind) : bool := match k with KZ | KHeight | KHybrid | KPres => true | _ => false end.
Definition is_t (k : kind) : bool := match k with KT => true | _ => false end.

Definition join (l : list string) : string := String.concat " " l.

(* cfmeta.py:146-271, one axis; [others] = the names of the variables there are *)
Definition encode_axis (others : list string) (a : caxis) : option (caxis * extras) :=
  let name := x_name a in
  match x_content a with
  | Times t =>
    let atts := put "standard_name" "time"%string (x_atts a) in
    let atts := put "units" (units_text (t_units t) (t_start t)) atts in
    let atts := put "calendar" (cal_name (t_cal t)) atts in
    let atts := put "axis" "T"%string atts in
    bind (sequence (map (axis_value (t_cal t) (t_start t) (t_units t) (t_mask t)) (t_dates t))) (fun values =>
    Some (CAxis name atts (Points KNamed values []), []))
  | Points k values aux =>
    let atts := x_atts a in
    let atts := match k with
                | KLat => put "units" "degrees_north"%string (put "standard_name" "latitude"%string atts)
                | KLon => put "units" "degrees_east"%string (put "standard_name" "longitude"%string atts)
                | KPres => put "positive" "down"%string (put "units" "hPa"%string (put "standard_name" "air_pressure"%string atts))
                | KHybrid => put "standard_name" "atmosphere_hybrid_sigma_pressure_coordinate"%string atts
                | _ => atts
                end in
    let atts := if is_x k then put "axis" "X"%string atts else atts in
    let atts := if is_y k then put "axis" "Y"%string atts else atts in
    let atts := if is_z k then put "axis" "Z"%string atts else atts in
    let atts := if is_t k then put "axis" "T"%string atts else atts in
    let new := map (fun '(n, v) => ((name ++ "_" ++ n)%string, v)) aux in
    if existsb (fun '(n, _) => existsb (String.eqb n) others) new then None else
    let atts := match new with [] => atts | _ => put "ancillary_variables" (join (map fst new)) atts end in
    Some (CAxis name atts (Points KNamed values []), new)
  end.

(* cfmeta.py:330-345: the arrays named by the attribute; [vars] = the variables along this axis *)
Definition take_aux (name : string) (vars : extras) (anc : string) : option (list (string * list Q)) :=
  sequence (map (fun n => bind (lookup n vars) (fun v =>
    Some (match strip (name ++ "_") n with Some m => m | None => n end, v))) (split anc)).
(* aux[newname] = ... in a loop: later entries replace earlier ones *)
Definition gather_aux (l : list (string * list Q)) : list (string * list Q) :=
  fold_left (fun d '(n, v) => put n v d) l [].

(* cfmeta.py:347-359: the class *)
Definition first_kind (axis : option string) (k : kind) : kind :=
  match axis with
  | Some s => if String.eqb s "X" then KX else if String.eqb s "Y" then KY else if String.eqb s "Z" then KZ
              else if String.eqb s "T" then KT else k
  | None => k
  end.
(* cls(values=..., name=..., atts=..., **aux) for these classes: a Lat makes weights of its own ([cosines]) unless they are given *)
Definition new_aux (cosines : list Q -> list Q) (k : kind) (values : list Q) (aux : list (string * list Q)) : list (string * list Q) :=
  match k with
  | KLat => match lookup "weights" aux with Some _ => aux | None => ("weights"%string, cosines values) :: aux end
  | _ => aux
  end.
(* does the text say when to count from? cfmeta.py:383 *)
Definition since (st units : string) (k : kind) : bool :=
  (String.eqb st "time" || kind_eqb k KT ||
   existsb (fun u => match strip (u ++ " since") units with Some _ => true | None => false end) ["days"; "hours"; "minutes"; "seconds"]%string)
  && contains " since " units.

Definition starts_air (st units : string) : bool := String.eqb st "air_pressure" || String.eqb units "hPa" || String.eqb units "mbar".

(* cfmeta.py:322-459, one axis.  Only generic axes are decoded here: for an axis that is a time axis already, and for
   stations (standard name 'station'), the model gives None.  Result: the axis, and the names of the variables used up. *)
Definition decode_axis (cosines : list Q -> list Q) (vars : extras) (a : caxis) : option (caxis * list string) :=
  let name := x_name a in
  match x_content a with
  | Times t => None
  | Points k0 values aux0 =>
    let atts := x_atts a in
    bind (match lookup "ancillary_variables" atts with
          | Some anc => bind (take_aux name vars anc) (fun l => Some (gather_aux l, split anc))
          | None => Some ([], [])
          end) (fun '(aux, used) =>
    let atts := drop "ancillary_variables" atts in
    let k := first_kind (lookup "axis" atts) k0 in
    let atts := drop "axis" atts in
    let ln := lower (dget "long_name" name atts) in
    let st := lower (dget "standard_name" ln atts) in
    let units := dget "units" "" atts in
    let atts := drop "units" atts in
    let k := if String.eqb st "latitude" || String.eqb units "degrees_north" then KLat else k in
    let k := if String.eqb st "longitude" || String.eqb units "degrees_east" then KLon else k in
    let air := starts_air st units in
    let k := if air then KPres else k in
    let atts := if air then drop "positive" atts else atts in
    let k := if String.eqb st "atmosphere_hybrid_sigma_pressure_coordinate" &&
                match lookup "A" aux, lookup "B" aux with Some _, Some _ => true | _, _ => false end then KHybrid else k in
    if String.eqb st "station" then None else
    if since st units k then
      let c := dget "calendar" "standard" atts in
      let atts := drop "calendar" atts in
      match read_calendar c with
      | None => Some (a, used)      (* warn and continue *)
      | Some c => bind (decode_time c units values) (fun t => Some (CAxis name atts (Times t), used))
      end
    else
      let atts := match k with
                  | KAxis | KNamed | KX | KY | KZ | KT => if String.eqb units "" then atts else put "units" units atts
                  | _ => atts
                  end in
      if kind_eqb k k0 then Some (a, used)
      else Some (CAxis name atts (Points k values (new_aux cosines k values aux)), used))
  end.
End Time.
