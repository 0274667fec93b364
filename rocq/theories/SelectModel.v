(** Model of selection by keywords: /repo/pygeode/axis.py:389-477 Axis.get_slice and /repo/pygeode/var.py:386-427
    Var.__call__.

    Keys are strings and are taken apart as the code does it.  What the names of an axis are (has_alias), which auxiliary
    arrays it has and which of the arrays are floating point is given by [naming].  Values are exact rationals; strings as
    values (str_as_val) are not included. *)
From Coq Require Import ZArith List Bool QArith_base Qabs Qminmax String Ascii.
From Verif Require Import IndexModel IndexSpec ArrModel ViewModel AxisModel VarOpsModel StencilModel.
Import ListNotations.
Open Scope Z_scope.

Record naming := Naming {
  alias : axis -> string -> bool;                (* axis.py:592 has_alias *)
  auxarray : axis -> string -> option (list Q);  (* auxarrays *)
  floating : axis -> string -> bool              (* vals.dtype.name.startswith('float') for the array of that name *)
}.

(** one value or several values; [Nothing] is None *)
Inductive item := Int (z : Z) | Real (q : Q) | Nothing.
Inductive request := One (x : item) | Several (l : list item).
Notation keywords := (list (string * request)) (only parsing).

(** *** strings *)
Definition underscore : ascii := "_"%char.
(* k.split('_', 1) *)
Fixpoint split_key (k : string) : option (string * string) :=
  match k with
  | EmptyString => None
  | String c t => if Ascii.eqb c underscore then Some (EmptyString, t)
                  else match split_key t with Some (p, r) => Some (String c p, r) | None => None end
  end.
(* letter in prefix *)
Fixpoint has_letter (c : ascii) (s : string) : bool :=
  match s with EmptyString => false | String d t => Ascii.eqb c d || has_letter c t end.
(* prefix.replace(letter, '') *)
Fixpoint without (c : ascii) (s : string) : string :=
  match s with EmptyString => EmptyString | String d t => if Ascii.eqb c d then without c t else String d (without c t) end.

(** *** masks *)
Definition no_mask (n : Z) : list bool := map (fun _ => false) (arange 0 n 1).
(* kp[ind] = True *)
Definition mark (n : Z) (ind : list Z) : list bool := map (fun i => existsb (Z.eqb i) ind) (arange 0 n 1).
(* an integer index; IndexError if out of range *)
Definition whole_index (n i : Z) : option Z := if (- n <=? i) && (i <? n) then Some (from_end n i) else None.
(* np.flatnonzero *)
Definition flatnonzero (keep : list bool) : list Z := map fst (filter snd (combine (arange 0 (zlen keep) 1) keep)).
(* np.array(v, 'int') *)
Definition as_int (x : item) : option Z :=
  match x with Int z => Some z | Real q => Some (Z.quot (Qnum q) (Zpos (Qden q))) | Nothing => None end.
(* a bound of a slice; TypeError if it is a float *)
Definition bound (x : item) : option (option Z) :=
  match x with Int z => Some (Some z) | Nothing => Some None | Real _ => None end.
Definition as_num (x : item) : option Q := match x with Int z => Some (inject_Z z) | Real q => Some q | Nothing => None end.

(* np.argmin(np.abs(v - vals)): the first of the smallest; ValueError if there are none *)
Fixpoint argmin_from (i best : Z) (d : Q) (l : list Q) : Z :=
  match l with
  | [] => best
  | x :: t => if negb (Qle_bool d x) then argmin_from (i + 1) i x t else argmin_from (i + 1) best d t
  end.
Definition argmin (l : list Q) : option Z := match l with [] => None | x :: t => Some (argmin_from 1 0 x t) end.

(* axis.py:405-426  selection by index *)
Definition index_mask (n : Z) (prefix : string) (v : request) : option (list bool) :=
  match v with
  | One (Int i) => option_map (fun i => mark n [i]) (whole_index n i)
  | One (Real _) => None
  | One Nothing => Some (map (fun _ => true) (arange 0 n 1))   (* kp[None] = True sets every element *)
  | Several l =>
    if Nat.ltb 3 (List.length l) || Nat.ltb (List.length l) 2 || has_letter "l" prefix then
      option_map (mark n) (sequence (map (fun x => bind (as_int x) (whole_index n)) l))
    else
      match sequence (map bound l) with
      | Some [a; b] => option_map (mark n) (np_index (SSlice (Slice a b None)) n)
      | Some [a; b; c] => option_map (mark n) (np_index (SSlice (Slice a b c)) n)
      | _ => None
      end
  end.
(* the positions picked for one value: the closest, or, for other dtypes, the equal ones *)
Definition matching (float : bool) (vals : list Q) (x : item) : option (list Z) :=
  match as_num x with
  | None => if float then None else Some []   (* None - vals raises, vals == None is False *)
  | Some q =>
    if float then option_map (fun i => [i]) (argmin (map (fun w => Qabs (q - w)) vals))
    else Some (map fst (filter (fun '(_, w) => Qeq_bool w q) (combine (arange 0 (zlen vals) 1) vals)))
  end.
(* axis.py:438-466  selection by value *)
Definition value_mask (n : Z) (prefix : string) (float : bool) (vals : list Q) (v : request) : option (list bool) :=
  match v with
  | One x => option_map (mark n) (matching float vals x)
  | Several l =>
    if has_letter "l" prefix then option_map (fun ls => mark n (List.concat ls)) (sequence (map (matching float vals) l))
    else
      match map as_num l with
      | [Some a; Some b] =>
        Some (mark n (map fst (filter (fun '(_, w) => Qle_bool (Qmin a b) w && Qle_bool w (Qmax a b)) (combine (arange 0 (zlen vals) 1) vals))))
      | _ => None
      end
  end.

Section Select.
Context (N : naming).
(* axis.py:399-403 *)
Definition parse (a : axis) (k : string) : string * string :=
  if alias N a k then (EmptyString, k) else match split_key k with Some pr => pr | None => (EmptyString, k) end.
(* axis.py:399-470  one keyword: nothing to do with this axis (outer None inside Some), or its mask; None = exception *)
Definition keyword_mask (a : axis) (k : string) (v : request) : option (option (list bool)) :=
  let n := axis_len a in
  let '(prefix, ax) := parse a k in
  let kp :=
    if has_letter "i" prefix then (if alias N a ax then option_map Some (index_mask n prefix v) else Some None)
    else if alias N a ax then option_map Some (value_mask n prefix (floating N a ax) (axis_vals a) v)
    else match auxarray N a ax with
         | Some vals => option_map Some (value_mask n prefix (floating N a ax) vals v)
         | None => Some None
         end in
  match kp with
  | Some (Some kp) => Some (Some (if has_letter "n" prefix then map negb kp else kp))
  | other => other
  end.
(* axis.py:389-477 with ignore_mismatch=True: the slice, and the keywords that are left *)
Fixpoint get_slice_loop (a : axis) (keep : list bool) (kw : keywords) : option (list bool * keywords) :=
  match kw with
  | [] => Some (keep, [])
  | (k, v) :: t =>
    match keyword_mask a k v with
    | None => None
    | Some None => option_map (fun '(keep, rest) => (keep, (k, v) :: rest)) (get_slice_loop a keep t)
    | Some (Some kp) => get_slice_loop a (map (fun '(x, y) => x && y) (combine keep kp)) t
    end
  end.
Definition get_slice (a : axis) (kw : keywords) : option (sel * keywords) :=
  option_map (fun '(keep, rest) => (simplify (flatnonzero keep), rest)) (get_slice_loop a (map (fun _ => true) (arange 0 (axis_len a) 1)) kw).

(* var.py:420  slices = [a.get_slice(newargs, ignore_mismatch=True) for a in self.axes] *)
Fixpoint get_slices (axes : list axis) (kw : keywords) : option (list sel * keywords) :=
  match axes with
  | [] => Some ([], kw)
  | a :: t =>
    match get_slice a kw with
    | None => None
    | Some (sl, kw) => option_map (fun '(sls, kw) => (sl :: sls, kw)) (get_slices t kw)
    end
  end.

(* tools.py whichaxis for a string *)
Definition which_axis (axes : list axis) (k : string) : option nat :=
  option_map fst (find (fun '(_, a) => alias N a k) (combine (seq 0 (List.length axes)) axes)).
Definition has_axis (axes : list axis) (k : string) : bool := match which_axis axes k with Some _ => true | None => false end.
(** d[k] = v *)
Fixpoint store (k : string) (v : request) (d : keywords) : keywords :=
  match d with
  | [] => [(k, v)]
  | (k', v') :: t => if String.eqb k k' then (k, v) :: t else (k', v') :: store k v t
  end.
(* var.py:392-418  the m and s prefixes: means, squeezes (axis names), the new keywords *)
Fixpoint prefixes (axes : list axis) (kw : keywords) (means squeezes : list string) (new : keywords) : option (list string * list string * keywords) :=
  match kw with
  | [] => Some (means, squeezes, new)
  | (k, v) :: t =>
    let '(prefix, ax) := if has_axis axes k then (EmptyString, k) else match split_key k with Some pr => pr | None => (EmptyString, k) end in
    if (has_letter "m" prefix || has_letter "s" prefix) && negb (has_axis axes ax) then None else
    let means := if has_letter "m" prefix then means ++ [ax] else means in
    let prefix := without "m" prefix in
    let squeezes := if has_letter "s" prefix && negb (existsb (String.eqb ax) means) then squeezes ++ [ax] else squeezes in
    let prefix := without "s" prefix in
    let k := match prefix with EmptyString => ax | _ => append prefix (String underscore ax) end in
    prefixes axes t means squeezes (store k v new)
  end.

Section Call.
Context {V : Type} (env : axenv) (junk : list Z -> V).
(* var.py:386-427  __call__ without ignore_mismatch, up to the means and squeezes that remain to be taken: the sliced
   variable and the positions of the axes to average and to squeeze *)
Definition call (x : var axis V) (kw : keywords) : option (var axis V * list nat * list nat) :=
  match prefixes (var_axes x) kw [] [] [] with
  | None => None
  | Some (means, squeezes, new) =>
    match get_slices (var_axes x) new with
    | Some (sls, []) =>
      bind (slice_var env junk x (map Sl sls)) (fun y =>
      bind (sequence (map (which_axis (var_axes x)) means)) (fun ms =>
      bind (sequence (map (which_axis (var_axes x)) squeezes)) (fun ss =>
      Some (y, ms, ss))))
    | _ => None
    end
  end.
End Call.
End Select.
