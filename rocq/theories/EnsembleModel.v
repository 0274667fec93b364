(** Model of ensembles of variables: /repo/pygeode/ensemble.py.  Metadata (combine_meta) are in CombineModel.v; dtypes are left out. *)
From Coq Require Import ZArith List Bool QArith_base.
From Verif Require Import IndexModel IndexSpec ArrModel ViewModel AxisModel VarOpsModel StencilModel ConcatModel.
Import ListNotations.
Open Scope Z_scope.

Section Ensemble.
Context {V : Type} (env : axenv) (junk : list Z -> V).
Notation ops := (axis_ops env).
Notation var := (ViewModel.var axis V).
(** the class Ensemble (a subclass of Index) and the name of its axes *)
Context (ens_class : class) (ens_name : Z).

(* ensemble.py:3-9  make_ensemble *)
Definition ens_axis (n : nat) : axis := Coord (MkCoord Plain ens_class ens_name (indices_q n) [] [] (new_rtol env (indices_q n))).

(* view.py:332-344  remove(0) *)
Definition remove_first (v : view axis) : view axis := MkView (tl (vaxes v)) (tl (vslices v)) (tl (vinds v)).
(* np.concatenate([[a], [b], ...], axis=0) *)
Definition np_stack (l : list (arr V)) : option (arr V) :=
  match l with
  | [] => None
  | a :: _ => if forallb (fun b => if list_eq_dec Z.eq_dec (shape b) (shape a) then true else false) l
              then Some (Arr (zlen l :: shape a) (fun p => val (nth (Z.to_nat (hd 0 p)) l a) (tl p))) else None
  end.
(* ensemble.py:27-33  EnsembleVar.getview *)
Definition ensemble_view (vars : list var) (v : view axis) : option (arr V) :=
  bind (hd_error (vinds v)) (fun ind =>
  bind (sequence (map (fun i => bind (nth_error vars (Z.to_nat i)) (fun x => ViewModel.get ops junk (remove_first v) x true true)) ind)) np_stack).
(* ensemble.py:13-25  EnsembleVar.__init__ *)
Definition ensemble_var (vars : list var) : option var :=
  match vars with [] => None | x0 :: _ => Some (Var (ens_axis (length vars) :: var_axes x0) (GetView (ensemble_view vars))) end.

(* var.axes == var0.axes *)
Definition same_axes (B A : list axis) : bool := Nat.eqb (length B) (length A) && forallb (fun '(b, a) => axis_same b a) (combine B A).
Definition dataset := list (Z * var).
Definition lookup_var (n : Z) (d : dataset) : option var := option_map snd (find (fun '(m, _) => m =? n) d).
Definition has_names (a b : dataset) : bool := forallb (fun '(n, _) => existsb (fun '(m, _) => m =? n) b) a.
(* ensemble.py:39-80  ensemble, of datasets (a variable is a dataset of one variable) *)
Definition ensemble (ds : list dataset) : option dataset :=
  bind (hd_error ds) (fun d0 =>
  if negb (forallb (fun d => has_names d d0 && has_names d0 d) ds) then None else
  sequence (map (fun '(n, x0) =>
    bind (sequence (map (lookup_var n) ds)) (fun vars =>
    if negb (forallb (fun x => same_axes (var_axes x) (var_axes x0)) vars) then None else
    option_map (pair n) (ensemble_var vars))) d0)).
End Ensemble.
