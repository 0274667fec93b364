(** Model of the use of climatologies on the data they come from: from_trend and detrend of /repo/pygeode/climat.py, and
    the arithmetic of a variable with a climatology (ufunc.py, UfuncModel).  Names, meta-data and progress bars are left out. *)
From Coq Require Import ZArith List Bool QArith_base Qcanon.
From Verif Require Import CalModel TimeSearchModel IndexModel IndexSpec ArrModel ViewModel AxisModel VarOpsModel NumModel ReduceModel StencilModel SmoothModel
  WindowModel UfuncModel ClimModel.
Import ListNotations.
Open Scope Z_scope.

(** x - y: np.subtract *)
Definition np_subtract (l : list num) : num := match l with [a; b] => sub a b | _ => NaN end.
Definition np_multiply (l : list num) : num := match l with [a; b] => mul a b | _ => NaN end.
Definition np_plus (l : list num) : num := match l with [a; b] => add a b | _ => NaN end.
(** a[k, ...] *)
Definition first_index (a : arr num) (k : Z) : option (arr num) :=
  match shape a with
  | n :: s => if k <? n then Some (Arr s (fun p => val a (k :: p))) else None
  | [] => None
  end.

Section Anom.
Context (env : axenv) (lexsort : list (list Z) -> list Z) (junk : list Z -> num) (MAX_ARRAY_SIZE : Z).
Notation ops := (axis_ops env).
Notation var := (ViewModel.var axis num).
Notation get := (ViewModel.get ops junk).

(* climat.py:534-541  from_trend.getview *)
Definition from_trend_view (coef : var) (caxis : axis) (secs : var) (v : view axis) : option (arr num) :=
  bind (add_axis env v 0 caxis whole) (fun cview =>
  bind (get cview coef true true) (fun c =>
  bind (first_index c 0) (fun B => bind (first_index c 1) (fun A =>
  bind (get v secs true true) (fun s =>
  bind (apply_op np_multiply [Array A; Array s]) (fun m => apply_op np_plus [Array m; Array B])))))).
(* climat.py:497-533  from_trend(taxis, coef); [ci] = coef.whichaxis('coef').  Coefficients with a year that is the same for all of them
   (climat.py:515-522: the year is taken away) are not modelled: None *)
Definition from_trend (t : taxis) (coef : var) (ci : nat) : option var :=
  bind (time_index (var_axes coef)) (fun '(ti, ct) =>
  if my (t_mask ct) && (zlen (np_unique (map year (t_dates ct))) =? 1) then None else
  bind (seconds_var t) (fun secs =>
  bind (nth_error (var_axes coef) ci) (fun caxis =>
  bind (axis_map_to env (Time ct) (Time t)) (fun _ =>      (* the assertion *)
  Some (Var (remove_at (set_at (var_axes coef) ti (Time t)) ci) (GetView (from_trend_view coef caxis secs))))))).
(* climat.py:550-558  detrend; [coef] = the Coef axis, which climtrend puts at the end *)
Definition detrend (coef : axis) (x : var) : option var :=
  bind (trend env lexsort junk MAX_ARRAY_SIZE coef Clim x) (fun y => bind (load env y junk) (fun y =>
  bind (time_index (var_axes x)) (fun '(_, t) =>
  bind (from_trend t y (length (var_axes x))) (fun clim =>
  ufunc_var env junk np_subtract [AVar x; AVar clim])))).
End Anom.
