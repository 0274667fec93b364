(** Model of concatenation: /repo/pygeode/concat.py (ConcatVar, concat) and /repo/pygeode/axis.py:602-641, 1322-1335 (concat of
    axes).  dtypes, meta-data and progress bars are left out. *)
From Coq Require Import ZArith List Bool QArith_base.
From Verif Require Import CalModel TimeSearchModel IndexModel IndexSpec ArrModel ViewModel AxisModel VarOpsModel StencilModel.
Import ListNotations.
Open Scope Z_scope.

(** *** axes *)
(* axis.py:1329-1333  the most general class, if all are subclasses of it *)
Definition common_class (cs : list (list Z)) : option (list Z) :=
  match cs with
  | [] => None
  | c :: _ => fold_left (fun acc c2 => bind acc (fun c => let c' := if prefix c2 c then c2 else c in if prefix c' c2 then Some c' else None)) cs (Some c)
  end.
Definition find_key {A} (k : Z) (l : list (Z * A)) : option A := option_map snd (find (fun kv => fst kv =? k) l).
Definition all_coords (l : list axis) : option (list coord) := sequence (map (fun a => match a with Coord c => Some c | _ => None end) l).
Definition all_noncoords (l : list axis) : option (list noncoord) := sequence (map (fun a => match a with NonCoord c => Some c | _ => None end) l).
Definition all_times (l : list axis) : option (list taxis) := sequence (map (fun a => match a with Time c => Some c | _ => None end) l).

Definition mask_and (j k : mask) : mask :=
  mkmask (my j && my k) (mm j && mm k) (md j && md k) (mh j && mh k) (mmi j && mmi k) (ms j && ms k).
Definition unit_eq_dec (x y : CalModel.unit) : {x = y} + {x <> y}. Proof. decide equality. Defined.
Definition pdate_eq_dec (x y : pdate) : {x = y} + {x <> y}. Proof. repeat decide equality. Defined.
(* timeaxis.py:373-385  a given start date: only the fields of the axis, with defaults *)
Definition start_fields (k : mask) (p : pdate) : pdate :=
  let f (b : bool) (x : option Z) (z : Z) := if b then Some (match x with Some v => v | None => z end) else None in
  mkpdate (f (my k) (pyear p) 1) (f (mm k) (pmonth p) 1) (f (md k) (pday p) 1) (f (mh k) (phour p) 0) (f (mmi k) (pminute p) 0) (f (ms k) (psecond p) 0).

Section Env.
Context (env : axenv).
(* axis.py:602-641, with the constructors of the classes.
   Coordinate axes: values and the auxiliary arrays that all have are concatenated, attributes on which all agree are kept.
   Time axes (timeaxis.py:355-420, 71-125): the fields that all have; the start date if all agree on it, or the first date; the
   units if all agree on them, or days; the values are recomputed from the dates.  An axis without any field is not
   considered.
   Non-coordinate axes: the keys that all have. *)
Definition axis_concat (axes : list axis) : option axis :=
  match axes with
  | [] => None
  | [a] => Some a
  | a :: _ =>
    bind (common_class (map axis_class axes)) (fun cls =>
    match a with
    | Coord c0 =>
      bind (all_coords axes) (fun cs =>
      bind (find (fun c => class_eqb (c_class c) cls) cs) (fun top =>
      let vals := List.concat (map c_vals cs) in
      let aux := flat_map (fun kv => match sequence (map (fun c => find_key (fst kv) (c_aux c)) cs) with Some vs => [(fst kv, List.concat vs)] | None => [] end) (c_aux c0) in
      let atts := filter (fun kv => forallb (fun c => match find_key (fst kv) (c_atts c) with Some v => v =? snd kv | None => false end) cs) (c_atts c0) in
      Some (Coord (MkCoord (c_kind top) cls (c_name c0) vals aux atts (new_rtol env vals)))))
    | NonCoord n0 =>
      bind (all_noncoords axes) (fun ns =>
      match filter (fun k => forallb (fun n => existsb (Z.eqb k) (n_keys n)) ns) (n_keys n0) with
      | [] => None
      | keys => Some (NonCoord (MkNonCoord cls keys (flat_map (fun n => map (pick_keys (n_keys n) keys) (n_rows n)) ns)))
      end)
    | Time t0 =>
      bind (all_times axes) (fun ts =>
      let k := fold_left mask_and (map t_mask ts) (t_mask t0) in
      if mask_eqb k (mkmask false false false false false false) then None else
      let dates := List.concat (map t_dates ts) in
      let units := if forallb (fun t => if unit_eq_dec (t_units t) (t_units t0) then true else false) ts then t_units t0 else Days in
      bind (if forallb (fun t => if pdate_eq_dec (t_start t) (t_start t0) then true else false) ts then Some (start_fields k (t_start t0))
            else option_map (mask_date k) (nth_error dates 0)) (fun start =>
      bind (sequence (map (axis_value (t_cal t0) start units k) dates)) (fun vals =>
      Some (Time (MkTime cls (t_cal t0) start units k dates vals)))))
    end)
  end.

(* axis.py:652-747 is_equivalent with its default arguments, for all axes *)
Definition axis_equivalent (a b : axis) : bool :=
  match a, b with
  | Coord c, Coord d => is_equivalent c d
  | NonCoord m, NonCoord n => comparable (n_class m) (n_class n) && zlist_eqb (n_keys m) (n_keys n) &&
      (if list_eq_dec (list_eq_dec Z.eq_dec) (n_rows m) (n_rows n) then true else false)
  | Time s, Time t => comparable (t_class s) (t_class t) && allclose (t_vals s) (t_vals t) &&
      (if unit_eq_dec (t_units s) (t_units t) then true else false) && (if pdate_eq_dec (t_start s) (t_start t) then true else false) &&
      mask_eqb (t_mask s) (t_mask t) && Nat.eqb (length (t_dates s)) (length (t_dates t)) &&
      forallb (fun '(r, s) => forallb (fun '(x, y) => zclose x y) (combine r s)) (combine (records (t_mask s) s) (records (t_mask s) t))
  | _, _ => false
  end.

(** *** variables *)
(* concat.py:28-50  which axis to concatenate along; the number of axes if there is none *)
Fixpoint varying (i : nat) (axes : list axis) (others : list (list axis)) : option (list nat) :=
  match axes with
  | [] => Some []
  | a :: t =>
    let axmatch := map (fun o => match nth_error o i with Some b => axis_equivalent a b | None => false end) others in
    if forallb (fun m => m) axmatch then varying (S i) t others
    else if existsb (fun m => m) axmatch then None
    else option_map (cons i) (varying (S i) t others)
  end.
Definition find_concat_axis (axes : list axis) (others : list (list axis)) : option nat :=
  match varying 0 axes others with
  | Some [] => Some (length axes)
  | Some [d] => Some d
  | _ => None
  end.

(* np.concatenate(chunks, axis) *)
Fixpoint concat_all {V} (chunks : list (arr V)) (d : nat) : option (arr V) :=
  match chunks with
  | [] => None
  | [a] => Some a
  | a :: t => bind (concat_all t d) (fun b => concatenate a b d)
  end.

Section Var.
Context {V : Type} (junk : list Z -> V).
Notation ops := (axis_ops env).
(* view.py:176-179 *)
Definition subaxis (v : view axis) (d : nat) : option axis :=
  bind (nth_error (vaxes v) d) (fun a => bind (nth_error (vslices v) d) (fun sl => option_map (axis_take env a) (np_index sl (axis_len a)))).
(* concat.py:83-102  getview, the usual case *)
Definition concat_view (vars : list (var axis V)) (d : nat) (v : view axis) : option (arr V) :=
  bind (subaxis v d) (fun out_ax =>
  bind (sequence (map (fun x => bind (nth_error (var_axes x) d) (fun a => option_map (pair (x, a)) (axis_map_to env a out_ax))) vars)) (fun parts =>
  bind (sequence (map (fun '(x, a, sl) => bind (replace_axis env v d a (SList sl)) (fun sub => ViewModel.get ops junk sub x true false))
                      (filter (fun '(_, sl) => 0 <? zlen sl) parts))) (fun chunks =>
  concat_all chunks d))).
(* view.py:332-344, one axis *)
Definition remove_axis (v : view axis) (d : nat) : view axis :=
  let f {A} (l : list A) := firstn d l ++ skipn (S d) l in MkView (f (vaxes v)) (f (vslices v)) (f (vinds v)).
(* np.expand_dims(a, a.ndim) *)
Definition expand_last (a : arr V) : arr V := Arr (shape a ++ [1]) (fun p => val a (removelast p)).
(* concat.py:74-82  getview, a new axis at the end *)
Definition stack_view (vars : list (var axis V)) (d : nat) (v : view axis) : option (arr V) :=
  let sub := remove_axis v d in
  bind (sequence (map (fun i => bind (nth_error vars (Z.to_nat i)) (fun x => option_map expand_last (ViewModel.get ops junk sub x true true))) (nth d (vinds v) []))) (fun chunks =>
  concat_all chunks d).

(** the class NamedAxis and the name "concat" *)
Context (named : list Z) (concat_name : Z).
Definition new_axis (n : nat) : axis := Coord (MkCoord Named named concat_name (indices_q n) [] [] (new_rtol env (indices_q n))).
(* concat.py:10-71  ConcatVar *)
Definition concat_var (vars : list (var axis V)) (iaxis : option nat) : option (var axis V) :=
  match vars with
  | [] => None
  | x0 :: rest =>
    let axes := var_axes x0 in
    let n := length axes in
    if negb (forallb (fun x => Nat.eqb (length (var_axes x)) n && forallb (fun '(a, b) => prefix (axis_class a) (axis_class b)) (combine axes (var_axes x))) vars) then None else
    bind (match iaxis with
          | Some d => if Nat.ltb d n then Some d else None
          | None => find_concat_axis axes (map (@var_axes _ _) rest)
          end) (fun d =>
    if Nat.eqb d n then Some (Var (axes ++ [new_axis (length vars)]) (GetView (stack_view vars d)))
    else bind (sequence (map (fun x => nth_error (var_axes x) d) vars)) (fun segs =>
         bind (axis_concat segs) (fun whole =>
         Some (Var (set_at axes d whole) (GetView (concat_view vars d))))))
  end.
(* concat.py:104-117  concat *)
Definition concat (vars : list (var axis V)) (iaxis : option nat) : option (var axis V) :=
  match vars with [x] => Some x | _ => concat_var vars iaxis end.
End Var.
End Env.
