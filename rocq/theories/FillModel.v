(** Model of /repo/pygeode/varoperations.py:540-676: fill, unfill and as_type.  Names and attributes are left out.
    [round]: what numpy makes of a number when it is stored in an array of the type at hand (float32, float64). *)
From Coq Require Import ZArith List Bool QArith_base Qcanon.
From Verif Require Import IndexModel IndexSpec ArrModel ViewModel AxisModel VarOpsModel NumModel StencilModel.
Import ListNotations.
Open Scope Z_scope.

(** x == y in numpy: NaN is not equal to itself *)
Definition num_eqb (x y : num) : bool :=
  match x, y with Fin p, Fin q => qc_eqb p q | PInf, PInf | MInf, MInf => true | _, _ => false end.

Section Fill.
Context (env : axenv).
(** a new array made from each element: data = view.get(var); f(data) *)
Definition each_view {V W} (junk : list Z -> V) (f : V -> W) (x : ViewModel.var axis V) (v : view axis) : option (arr W) :=
  bind (ViewModel.get (axis_ops env) junk v x true true) (fun data => Some (Arr (shape data) (fun p => f (val data p)))).
Definition each_var {V W} (junk : list Z -> V) (f : V -> W) (x : ViewModel.var axis V) : ViewModel.var axis W :=
  Var (var_axes x) (GetView (each_view junk f x)).

(* varoperations.py:543-557 FillVar: w = np.where(np.isnan(data)); data[w] = self._fill (stored as an element of data) *)
Definition filled (round : num -> num) (fill : num) (v : num) : num := if is_nan v then round fill else v.
Definition fill_var (junk : list Z -> num) (round : num -> num) (fill : num) (x : ViewModel.var axis num) : ViewModel.var axis num :=
  each_var junk (filled round fill) x.
(* varoperations.py:583-601 UnfillVar: np.asarray(data, dtype), and NaN where data == self._fill (a Python number takes the type of the array) *)
Definition unfilled {V} (to_float : V -> num) (round : num -> num) (fill : num) (v : V) : num :=
  if num_eqb (to_float v) (round fill) then NaN else to_float v.
Definition unfill_var {V} (junk : list Z -> V) (to_float : V -> num) (round : num -> num) (fill : num) (x : ViewModel.var axis V) : ViewModel.var axis num :=
  each_var junk (unfilled to_float round fill) x.
(* varoperations.py:627-641 Cast: np.asarray(data, dtype); [cast]: the conversion of one element *)
Definition cast_var {V W} (junk : list Z -> V) (cast : V -> W) (x : ViewModel.var axis V) : ViewModel.var axis W := each_var junk cast x.
End Fill.
