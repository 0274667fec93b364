(** Model of packing and unpacking: /repo/pygeode/formats/__init__.py:28-59 (PackVar), /repo/pygeode/formats/cfmeta.py:20-57 (var_newaxes,
    which decode_cf wraps around every variable of a file) and :463-475 (fill value, scale and offset from the attributes).
    Exact arithmetic: the float32 the unpacked values are kept in is not modelled.  Names and attributes are left out. *)
From Coq Require Import ZArith List Bool QArith_base Qcanon.
From Verif Require Import IndexModel IndexSpec ArrModel ViewModel AxisModel VarOpsModel ReduceModel NumModel StencilModel.
Import ListNotations.
Open Scope Z_scope.

(** towards zero *)
Definition truncate (q : Qc) : Z := Z.quot (Qnum (this q)) (Zpos (Qden (this q))).
(* a.astype(np.int16) for one number: what comes of NaN, infinities and numbers out of range ([wild]) depends on the machine *)
Definition to_int16 (wild : num -> Z) (v : num) : Z :=
  match v with
  | Fin q => if (-32768 <=? truncate q) && (truncate q <=? 32767) then truncate q else wild v
  | _ => wild v
  end.
Definition np_eq (x y : num) : bool :=
  match x, y with Fin p, Fin q => qc_eqb p q | PInf, PInf | MInf, MInf => true | _, _ => false end.

Section Pack.
Context (env : axenv) (junk : list Z -> num) (MAX_ARRAY_SIZE : Z).
Notation get := (ViewModel.get (axis_ops env) junk).

(* formats/__init__.py:29-50  scale and offset; min and max are numbers (arrays without axes) *)
Definition packing (x : var axis num) : option (num * num) :=
  bind (reduced_all env junk (nanmin_view env junk MAX_ARRAY_SIZE) x) (fun mn =>
  bind (reduced_all env junk (nanmax_view env junk MAX_ARRAY_SIZE) x) (fun mx =>
  Some (div (sub (val mx []) (val mn [])) (num_of_Z 65534), mul half (add (val mn []) (val mx []))))).
(* formats/__init__.py:52-55  getview *)
Definition pack (wild : num -> Z) (x : var axis num) : option (var axis Z * num * num) :=
  bind (packing x) (fun '(scale, offset) =>
  Some (Var (var_axes x) (GetView (fun v => option_map (map_arr (fun u => to_int16 wild (div (sub u offset) scale))) (get v x true true))), scale, offset)).
End Pack.

(* cfmeta.py:464-466  the first of FillValue, _FillValue, missing_value that is there and not zero ("if _f") *)
Definition is_zero (v : num) : bool := np_eq v zero.
Definition fill_value (atts : list (option num)) : option num :=
  match filter (fun v => negb (is_zero v)) (flat_map (fun o => match o with Some v => [v] | None => [] end) atts) with v :: _ => Some v | [] => None end.
(* cfmeta.py:38-57  one value; [of] = conversion to float *)
Definition unpack_value {W} (of : W -> num) (fill scale offset : option num) (u : W) : num :=
  let d := of u in
  if (match fill with Some f => np_eq d f | None => false end) then NaN
  else let d := match scale with Some s => mul d s | None => d end in
       match offset with Some o => add d o | None => d end.
(* View(self.var.axes, force_slices=view.slices, force_integer_indices=view.integer_indices).get(self.var); the new axes have the same lengths *)
Definition unpack {W} (env : axenv) (junkw : list Z -> W) (of : W -> num) (newaxes : list axis) (fill scale offset : option num) (x : var axis W) : option (var axis num) :=
  if list_eq_dec Z.eq_dec (map axis_len newaxes) (map axis_len (var_axes x)) then
    Some (Var newaxes (GetView (fun v => option_map (map_arr (unpack_value of fill scale offset))
      (ViewModel.get (axis_ops env) junkw (view_of_inds (var_axes x) (vinds v)) x true true))))
  else None.
