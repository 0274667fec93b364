(** Model of the axis objects of /repo/pygeode/axis.py and timeaxis.py, as far as views use them:
    length, equality, map_to, slicing.

    Simplifications: coordinates and auxiliary values are exact rationals (no NaN, no strings in
    coordinate axes); names, attribute values and station identifiers are encoded as integers;
    "is" on two objects is equality of their contents; meta-data (atts, plotatts) is left out;
    seasonal time axes are not included. *)
From Coq Require Import ZArith List Bool QArith_base Qabs.
From Verif Require Import CalModel SortModel TimeSearchModel IndexModel IndexSpec ArrModel ViewModel.
Import ListNotations.
Open Scope Z_scope.

(** what the model leaves open: the order numpy's argsort gives to equal values, and the
    tolerance computed by a new axis (axis.py:112-120) *)
Record axenv := AxEnv { argsort : list Q -> list Z; new_rtol : list Q -> Q }.

(** a class is the path from Axis to it in the class tree: [] is Axis itself *)
Notation class := (list Z) (only parsing).
Inductive kind := Plain | Named | Dummy.     (* Axis and subclasses; NamedAxis; DummyAxis *)

Record coord := MkCoord {
  c_kind : kind; c_class : class; c_name : Z;
  c_vals : list Q;                    (* values *)
  c_aux : list (Z * list Q);          (* auxarrays, sorted by key *)
  c_atts : list (Z * Z);              (* auxatts, sorted by key *)
  c_rtol : Q }.

(** NonCoordinateAxis: no values but 0,1,2,...; [n_rows] = the auxarray entries of each element,
    in the order of [n_keys] *)
Record noncoord := MkNonCoord { n_class : class; n_keys : list Z; n_rows : list (list Z) }.

(** CalendarTime: only the fields of [t_mask] are present as auxarrays *)
Record taxis := MkTime {
  t_class : class; t_cal : cal; t_start : pdate; t_units : CalModel.unit; t_mask : mask;
  t_dates : list date; t_vals : list Q }.

Inductive axis := Coord (c : coord) | NonCoord (n : noncoord) | Time (t : taxis).

Definition axis_class (a : axis) : class :=
  match a with Coord c => c_class c | NonCoord n => n_class n | Time t => t_class t end.

Fixpoint prefix (c d : class) : bool :=
  match c, d with
  | [], _ => true
  | x :: c, y :: d => (x =? y) && prefix c d
  | _, [] => false
  end.
Definition class_eqb (c d : class) : bool := prefix c d && prefix d c.

(* axis.py:152-168 isparentof, as used in map_to (line 247) and is_equivalent (line 700) *)
Definition comparable (c d : class) : bool := prefix c d || prefix d c.

Definition indices_q (n : nat) : list Q := map (fun k => inject_Z (Z.of_nat k)) (seq 0 n).
Definition axis_vals (a : axis) : list Q :=
  match a with
  | Coord c => c_vals c
  | NonCoord n => indices_q (length (n_rows n))      (* axis.py:1243 *)
  | Time t => t_vals t
  end.

(* axis.py:344 *)
Definition axis_len (a : axis) : Z :=
  match a with
  | Coord c => zlen (c_vals c)
  | NonCoord n => zlen (n_rows n)
  | Time t => zlen (t_dates t)
  end.

(** np.allclose with rtol = 1e-5, atol = 1e-8 *)
Definition close (x y : Q) : bool := Qle_bool (Qabs (x - y)) ((1 # 100000000) + (1 # 100000) * Qabs y).
Definition allclose (x y : list Q) : bool :=
  Nat.eqb (length x) (length y) && forallb (fun '(p, q) => close p q) (combine x y).

Definition zlist_eqb (x y : list Z) : bool := if list_eq_dec Z.eq_dec x y then true else false.
Definition zpair_eq_dec (x y : Z * Z) : {x = y} + {x <> y}.
Proof. decide equality; apply Z.eq_dec. Defined.

(* axis.py:652-747 is_equivalent with its default arguments *)
Definition is_equivalent (a b : coord) : bool :=
  comparable (c_class a) (c_class b) &&
  (match c_class a, c_class b with [], [] => c_name a =? c_name b | _, _ => true end) &&
  allclose (c_vals a) (c_vals b) &&
  (if list_eq_dec zpair_eq_dec (c_atts a) (c_atts b) then true else false) &&
  zlist_eqb (map fst (c_aux a)) (map fst (c_aux b)) &&
  forallb (fun '(x, y) => allclose (snd x) (snd y)) (combine (c_aux a) (c_aux b)).

Definition kind_eqb (x y : kind) : bool :=
  match x, y with Plain, Plain | Named, Named | Dummy, Dummy => true | _, _ => false end.

(* == between coordinate axes: axis.py:209 __eq__, 762-771 NamedAxis.__eq__.
   Python tries the right operand first when its class is a strict subclass of the left's. *)
Definition coord_eq (a b : coord) : bool :=
  let equiv := if prefix (c_class a) (c_class b) && negb (prefix (c_class b) (c_class a))
               then is_equivalent b a else is_equivalent a b in
  match c_kind a, c_kind b with
  | Plain, Plain => equiv
  | Named, Named | Named, Dummy | Dummy, Named => (c_name a =? c_name b) && equiv
  | _, _ => false           (* a NamedAxis never equals another class; a DummyAxis equals no DummyAxis *)
  end.

Definition q_eqb (x y : Q) : bool := Qeq_bool x y.
Fixpoint qlist_eqb (x y : list Q) : bool :=
  match x, y with
  | [], [] => true
  | p :: x, q :: y => q_eqb p q && qlist_eqb x y
  | _, _ => false
  end.

(** a DummyAxis is recognised as the same object *)
Definition coord_is (a b : coord) : bool :=
  kind_eqb (c_kind a) (c_kind b) && class_eqb (c_class a) (c_class b) && (c_name a =? c_name b) &&
  qlist_eqb (c_vals a) (c_vals b).

(* axis.py:1253-1261 NonCoordinateAxis.__eq__ *)
Definition noncoord_eq (a b : noncoord) : bool :=
  class_eqb (n_class a) (n_class b) && zlist_eqb (n_keys a) (n_keys b) &&
  (if list_eq_dec (list_eq_dec Z.eq_dec) (n_rows a) (n_rows b) then true else false).

Definition mask_eqb (j k : mask) : bool :=
  Bool.eqb (my j) (my k) && Bool.eqb (mm j) (mm k) && Bool.eqb (md j) (md k) &&
  Bool.eqb (mh j) (mh k) && Bool.eqb (mmi j) (mmi k) && Bool.eqb (ms j) (ms k).
Definition mask_sub (j k : mask) : bool :=
  implb (my j) (my k) && implb (mm j) (mm k) && implb (md j) (md k) &&
  implb (mh j) (mh k) && implb (mmi j) (mmi k) && implb (ms j) (ms k).

(** the auxarrays of a time axis, element by element *)
Definition records (k : mask) (t : taxis) : list (list Z) := map (project k) (t_dates t).
Definition zclose (x y : Z) : bool := close (inject_Z x) (inject_Z y).

(* timeaxis.py:144-158 Time.__eq__ *)
Definition time_eq (a b : taxis) : bool :=
  class_eqb (t_class a) (t_class b) && mask_eqb (t_mask a) (t_mask b) &&
  Nat.eqb (length (t_dates a)) (length (t_dates b)) &&
  forallb (fun '(r, s) => forallb (fun '(x, y) => zclose x y) (combine r s))
          (combine (records (t_mask a) a) (records (t_mask a) b)).

(** "a is b or a == b" *)
Definition axis_same (a b : axis) : bool :=
  match a, b with
  | Coord c, Coord d => coord_is c d || coord_eq c d
  | NonCoord m, NonCoord n => noncoord_eq m n
  | Time s, Time t => time_eq s t
  | _, _ => false
  end.
(** "a == b" *)
Definition axis_eq (a b : axis) : bool :=
  match a, b with
  | Coord c, Coord d => coord_eq c d
  | _, _ => axis_same a b
  end.

(** the entries of a row for the keys that the other axis also has *)
Definition common_keys (k l : list Z) : list Z := filter (fun x => existsb (Z.eqb x) l) k.
Definition pick_keys (keys : list Z) (want : list Z) (row : list Z) : list Z :=
  map snd (filter (fun '(k, _) => existsb (Z.eqb k) want) (combine keys row)).

(** list.index *)
Fixpoint row_index (rows : list (list Z)) (v : list Z) : option Z :=
  match rows with
  | [] => None
  | r :: t => if zlist_eqb r v then Some 0 else match row_index t v with Some i => Some (i + 1) | None => None end
  end.

(* axis.py:1294-1311 NonCoordinateAxis.map_to *)
Definition noncoord_map_to (a b : noncoord) : option (list Z) :=
  if prefix (n_class a) (n_class b) then
    match common_keys (n_keys a) (n_keys b) with
    | [] => None
    | ks => Some (flat_map (fun v => match row_index (map (pick_keys (n_keys a) ks) (n_rows a)) v with Some i => [i] | None => [] end)
                           (map (pick_keys (n_keys b) ks) (n_rows b)))
    end
  else None.

Section Env.
Context (env : axenv).

(* axis.py:220-256 Axis.map_to; 777-785 NamedAxis.map_to *)
Definition coord_map_to (a : coord) (other : axis) : option (list Z) :=
  let base := if comparable (c_class a) (axis_class other) then
                if axis_eq (Coord a) other then Some (arange 0 (zlen (c_vals a)) 1)
                else SortModel.map_to (c_vals a) (axis_vals other) (c_rtol a)
              else None in
  match c_kind a, other with
  | Plain, _ => base
  | _, Coord b => match c_kind b with
                  | Plain => None
                  | _ => if c_name a =? c_name b then base else None
                  end
  | _, _ => None
  end.

(* timeaxis.py:162-231 Time.map_to (an axis without any field is not considered) *)
Definition time_map (a b : taxis) : option (list Z) :=
  if class_eqb (t_class a) (t_class b) && mask_sub (t_mask a) (t_mask b)
  then time_map_to (argsort env (t_vals a)) (records (t_mask a) a) (records (t_mask a) b)
  else None.

Definition axis_map_to (a b : axis) : option (list Z) :=
  match a with
  | Coord c => coord_map_to c b
  | NonCoord m => match b with NonCoord n => noncoord_map_to m n | _ => None end
  | Time s => match b with Time t => time_map s t | _ => None end
  end.

(** l[ind], for valid indices *)
Definition pick {A} (d : A) (l : list A) (ind : list Z) : list A := map (fun i => nth (Z.to_nat i) l d) ind.

Definition date0 : date := mkdate 0 1 1 0 0 0.

(* axis.py:357-378 Axis._getitem_asvar: the axis itself if the values do not change *)
Definition axis_take (a : axis) (ind : list Z) : axis :=
  if qlist_eqb (pick 0%Q (axis_vals a) ind) (axis_vals a) then a else
  match a with
  | Coord c => Coord (MkCoord (c_kind c) (c_class c) (c_name c) (pick 0%Q (c_vals c) ind)
                       (map (fun '(k, v) => (k, pick 0%Q v ind)) (c_aux c)) (c_atts c)
                       (new_rtol env (pick 0%Q (c_vals c) ind)))
  | NonCoord n => NonCoord (MkNonCoord (n_class n) (n_keys n) (pick [] (n_rows n) ind))
  | Time t => Time (MkTime (t_class t) (t_cal t) (t_start t) (t_units t) (t_mask t)
                      (pick date0 (t_dates t) ind) (pick 0%Q (t_vals t) ind))
  end.

Definition axis_ops : axops axis := AxOps _ axis_len axis_same axis_map_to axis_take.

End Env.
