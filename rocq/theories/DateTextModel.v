(** Model of dates as text and of time axes made from them: /repo/pygeode/timeaxis.py:336-347, 470-658, 1062-1240.
    Simplifications: strings are ASCII; numbers are exact rationals; the codes j (day of the year), v and V (the value itself) of formatvalue are left out;
    configured parse patterns and axes given by a mask of fields only (partial start dates) are not considered in str_as_val. None = an exception. *)
From Coq Require Import ZArith List Bool QArith_base Qround Ascii String.
From Verif Require Import CalModel TimeSearchModel IndexModel ArrModel AxisModel StencilModel CfModel.
Import ListNotations.
Open Scope Z_scope.

(** ** matching, as re does it: all the ways to match the beginning of a text, in the order in which they are tried, with the rest of the text *)
Definition rx (A : Type) := string -> list (A * string).
Definition seq_rx {A B} (p : rx A) (q : A -> rx B) : rx B := fun s => flat_map (fun '(x, r) => q x r) (p s).
Definition alt {A} (p q : rx A) : rx A := fun s => p s ++ q s.
Definition ret {A} (x : A) : rx A := fun s => [(x, s)].
Definition one (p : ascii -> bool) : rx ascii := fun s => match s with String a r => if p a then [(a, r)] else [] | EmptyString => [] end.
Definition lit (c : string) : rx ascii := one (fun a => String.eqb c (String a EmptyString)).
(* \d{2} *)
Definition digits2 : rx string := seq_rx (one is_digit) (fun a => seq_rx (one is_digit) (fun b => ret (String a (String b EmptyString)))).
(* \d{1,2}, as many as possible first *)
Definition digits12 : rx string := alt digits2 (seq_rx (one is_digit) (fun a => ret (String a EmptyString))).
(* p+, as many as possible first *)
Fixpoint plus (p : ascii -> bool) (s : string) : list (string * string) :=
  match s with
  | EmptyString => []
  | String a r => if p a then map (fun '(x, t) => (String a x, t)) (plus p r) ++ [(String a EmptyString, r)] else []
  end.

(** hour, minute and second, the groups of the time of day; day, month and year *)
Definition clock_groups := (option string * option string * option string)%type.
Definition date_groups := (string * option (string * string))%type.
(* timeaxis.py:347  (?P<day>\d{1,2}) (?P<month>[a-zA-Z]+) (?P<year>\d+); timeaxis.py:1028, yearless axes: (?P<day>\d{1,2}) *)
Definition rx_day (c : cal) : rx date_groups :=
  match c with
  | Yearless => seq_rx digits12 (fun d => ret (d, None))
  | _ => seq_rx digits12 (fun d => seq_rx (lit " ") (fun _ => seq_rx (plus is_alpha) (fun m => seq_rx (lit " ") (fun _ => seq_rx (plus is_digit) (fun y => ret (d, Some (m, y)))))))
  end.
(* (?P<hour>\d{1,2}):(?P<minute>\d{2})(\s|:(?P<second>\d{2})) *)
Definition rx_clock : rx clock_groups :=
  seq_rx digits12 (fun h => seq_rx (lit ":") (fun _ => seq_rx digits2 (fun m =>
    alt (seq_rx (one is_space) (fun _ => ret (Some h, Some m, None))) (seq_rx (lit ":") (fun _ => seq_rx digits2 (fun s => ret (Some h, Some m, Some s))))))).
(* the whole pattern: the time of day, or the start of the text; then the date *)
Definition rx_pattern (c : cal) (start : bool) : rx (clock_groups * date_groups) :=
  seq_rx (alt rx_clock (fun s => if start then [((None, None, None), s)] else [])) (fun k => seq_rx (rx_day c) (fun d => ret (k, d))).
(* re.search: the first position at which the pattern matches, and there the first way *)
Fixpoint search (c : cal) (start : bool) (s : string) : option (clock_groups * date_groups) :=
  match rx_pattern c start s with
  | (g, _) :: _ => Some g
  | [] => match s with EmptyString => None | String _ r => search c false r end
  end.

(* timeaxis.py:16-19 *)
Definition months : list string :=
  ["Smarch"; "Jan"; "Feb"; "Mar"; "Apr"; "May"; "Jun"; "Jul"; "Aug"; "Sep"; "Oct"; "Nov"; "Dec"]%string.
Definition months_full : list string :=
  ["Smarch"; "January"; "February"; "March"; "April"; "May"; "June"; "July"; "August"; "September"; "October"; "November"; "December"]%string.
Fixpoint place_of (s : string) (l : list string) : option Z :=
  match l with [] => None | x :: l => if String.eqb s x then Some 0 else option_map (Z.add 1) (place_of s l) end.
(* timeaxis.py:640-657  str_as_date; int() of letters fails *)
Definition str_as_date (c : cal) (s : string) : option pdate :=
  bind (search c true s) (fun '((h, mi, sec), (d, my)) =>
  let date y m := mkpdate y m (Some (int_of d)) (option_map int_of h) (option_map int_of mi) (option_map int_of sec) in
  match my with
  | None => Some (date None None)
  | Some (m, y) => bind (place_of (lower m) (map lower months)) (fun m => Some (date (Some (int_of y)) (Some m)))
  end).
(* timeaxis.py:612  str_as_val *)
Definition str_as_val (c : cal) (start : pdate) (u : CalModel.unit) (s : string) : option Q := bind (str_as_date c s) (date_as_val c start u).

(** ** formatvalue *)
(* string.Template: $$ is a dollar sign; $name and ${name} are replaced, where a name is a letter or _ and then letters, digits and _ *)
Definition is_word (a : ascii) : bool := is_alpha a || (code a =? 95) || is_digit a.
Definition identifier (s : string) : option (string * string) :=
  match s with String a r => if is_word a && negb (is_digit a) then Some (span is_word s) else None | EmptyString => None end.
Fixpoint template (fuel : nat) (subs : string -> option string) (s : string) : option string :=
  match fuel with
  | 0%nat => None
  | S f =>
    match s with
    | EmptyString => Some EmptyString
    | String a r =>
      if Ascii.eqb a "$" then
        match r with
        | String b r' =>
          if Ascii.eqb b "$" then option_map (String "$") (template f subs r')
          else if Ascii.eqb b "{" then
            bind (identifier r') (fun '(n, r'') => match r'' with
              | String e r3 => if Ascii.eqb e "}" then bind (subs n) (fun x => option_map (append x) (template f subs r3)) else None
              | EmptyString => None end)
          else bind (identifier r) (fun '(n, r'') => bind (subs n) (fun x => option_map (append x) (template f subs r'')))
        | EmptyString => None
        end
      else option_map (String a) (template f subs r)
    end
  end.
(* timeaxis.py:520-577  the replacements *)
Definition opt (o : option Z) (f : Z -> option string) : option string := match o with Some v => f v | None => Some EmptyString end.
Definition subs (d : pdate) (n : string) : option string :=
  if String.eqb n "y" then opt (pyear d) (fun y => Some (fmt 2 (y mod 100)))
  else if String.eqb n "a" then match pyear d with Some y => Some (fmt 0 y) | None => None end
  else if String.eqb n "Y" then opt (pyear d) (fun y => Some (if Z.abs y <? 100 then String "y" (fmt 0 y) else fmt 0 y))
  else if String.eqb n "b" then opt (pmonth d) (fun m => nth_error months (Z.to_nat m))
  else if String.eqb n "B" then opt (pmonth d) (fun m => nth_error months_full (Z.to_nat m))
  else if String.eqb n "m" then opt (pmonth d) (fun m => Some (fmt 0 m))
  else if String.eqb n "d" then opt (pday d) (fun v => Some (fmt 0 v))
  else if String.eqb n "D" then opt (pday d) (fun v => Some (fmt 2 v))
  else if String.eqb n "H" then opt (phour d) (fun h => Some (fmt 2 h))
  else if String.eqb n "I" then opt (phour d) (fun h => Some (fmt 2 ((h - 1) mod 12 + 1)))
  else if String.eqb n "p" then opt (phour d) (fun h => Some (if h / 12 =? 0 then "am"%string else "pm"%string))
  else if String.eqb n "P" then opt (phour d) (fun h => Some (if h / 12 =? 0 then "AM"%string else "PM"%string))
  else if String.eqb n "M" then opt (pminute d) (fun v => Some (fmt 2 v))
  else if String.eqb n "S" then opt (psecond d) (fun v => Some (fmt 2 v))
  else None.
(* timeaxis.py:514-583  formatvalue *)
Definition formatvalue (c : cal) (start : pdate) (u : CalModel.unit) (value : Q) (f : string) : option string :=
  bind (val_as_date c start u false value) (fun d => template (S (String.length f)) (subs d) f).
(* timeaxis.py:339 *)
Definition default_format : string := "$b $d, $Y $H:$M:$S".

(** ** time axes from text *)
(* np.arange(0, n, step) *)
Definition np_arange (n step : Q) : option (list Q) :=
  if Qeq_bool step 0 then None
  else Some (map (fun k => inject_Z k * step)%Q (arange 0 (Qceiling (n / step)) 1)).
Section Range.
Context (tcls : cal -> class) (c : cal).
(* timeaxis.py:1087-1090; the start date is complete (timeaxis.py:371-377) *)
Definition made (vals : list Q) (o : Q) (u : CalModel.unit) (f : pdate) : option taxis := time_of_values tcls c (get_dates f) u (map (fun v => v + o)%Q vals).
Definition reference_date (s : pdate) (ref : option string) : option pdate := match ref with Some r => str_as_date c r | None => Some s end.
(* timeaxis.py:1062-1091 standardtimerange, 1122-1152 modeltime365range, 1183-1212 modeltime360range *)
Definition timerange (start stop : string) (step : Q) (u : CalModel.unit) (ref : option string) (inc : bool) : option taxis :=
  bind (str_as_date c start) (fun s => bind (str_as_date c stop) (fun e => bind (reference_date s ref) (fun f =>
  bind (date_diff c u s e) (fun n => bind (date_diff c u f s) (fun o =>
  bind (np_arange (if inc then n + step else n)%Q step) (fun vals => made vals o u f)))))).
(* timeaxis.py:1094-1119 standardtimen, 1155-1180 modeltime365n, 1215-1240 modeltime360n *)
Definition timen (start : string) (n : Z) (step : Q) (u : CalModel.unit) (ref : option string) : option taxis :=
  bind (str_as_date c start) (fun s => bind (reference_date s ref) (fun f =>
  bind (date_diff c u f s) (fun o => bind (np_arange (inject_Z n * step)%Q step) (fun vals => made vals o u f)))).
End Range.
(* timeaxis.py:1243-1260 yearlessn *)
Definition yearlessn (tcls : cal -> class) (n start : Z) (step : Q) (u : CalModel.unit) : option taxis :=
  bind (np_arange (inject_Z n * step)%Q step) (fun vals =>
  let d := mkpdate None None (Some start) (Some 0) (Some 0) (Some 0) in
  bind (sequence (map (val_as_date Yearless d u false) vals)) (fun ps =>
  let k := mkmask false false true true true true in
  let dates := map get_dates ps in
  bind (sequence (map (axis_value Yearless d u k) dates)) (fun v => Some (MkTime (tcls Yearless) Yearless d u k dates v)))).
