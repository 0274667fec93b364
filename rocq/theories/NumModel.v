(** Floating point values as used by the numerical code of /repo/pygeode: exact rationals plus the
    IEEE specials.  Rounding, overflow and the sign of zero are not modelled; everything else
    (propagation of NaN, inf - inf, comparisons with NaN) is.  The operations are numpy's / C's. *)
From Coq Require Import ZArith List Bool QArith_base Qcanon.
Import ListNotations.

Inductive num := Fin (q : Qc) | PInf | MInf | NaN.

Definition is_nan (x : num) : bool := match x with NaN => true | _ => false end.
Definition zero : num := Fin (Q2Qc 0).
Definition num_of_Z (z : Z) : num := Fin (Q2Qc (inject_Z z)).

Definition qc_ltb (x y : Qc) : bool := match (x ?= y)%Qc with Lt => true | _ => false end.
Definition qc_eqb (x y : Qc) : bool := match (x ?= y)%Qc with Eq => true | _ => false end.

(** x + y *)
Definition add (x y : num) : num :=
  match x, y with
  | NaN, _ | _, NaN => NaN
  | PInf, MInf | MInf, PInf => NaN
  | PInf, _ | _, PInf => PInf
  | MInf, _ | _, MInf => MInf
  | Fin p, Fin q => Fin (p + q)%Qc
  end.

Definition neg (x : num) : num :=
  match x with NaN => NaN | PInf => MInf | MInf => PInf | Fin q => Fin (- q)%Qc end.
Definition sub (x y : num) : num := add x (neg y).

(** an infinity with the sign of [q]; inf * 0 = NaN *)
Definition inf_times (positive : bool) (q : Qc) : num :=
  match (q ?= Q2Qc 0)%Qc with
  | Eq => NaN
  | Gt => if positive then PInf else MInf
  | Lt => if positive then MInf else PInf
  end.

(** x * y *)
Definition mul (x y : num) : num :=
  match x, y with
  | NaN, _ | _, NaN => NaN
  | PInf, PInf | MInf, MInf => PInf
  | PInf, MInf | MInf, PInf => MInf
  | PInf, Fin q | Fin q, PInf => inf_times true q
  | MInf, Fin q | Fin q, MInf => inf_times false q
  | Fin p, Fin q => Fin (p * q)%Qc
  end.

(** x / y; division by (positive) zero gives an infinity or NaN, as in numpy *)
Definition div (x y : num) : num :=
  match x, y with
  | NaN, _ | _, NaN => NaN
  | PInf, Fin q => if qc_ltb q (Q2Qc 0) then MInf else PInf
  | MInf, Fin q => if qc_ltb q (Q2Qc 0) then PInf else MInf
  | Fin _, (PInf | MInf) => zero
  | Fin p, Fin q => if qc_eqb q (Q2Qc 0) then inf_times true p else Fin (p / q)%Qc
  | _, _ => NaN
  end.

(** x < y, false if either is NaN *)
Definition ltb (x y : num) : bool :=
  match x, y with
  | Fin p, Fin q => qc_ltb p q
  | MInf, (Fin _ | PInf) | Fin _, PInf => true
  | _, _ => false
  end.

(** np.minimum, np.maximum: NaN if either is NaN *)
Definition minimum (x y : num) : num := if is_nan x || is_nan y then NaN else if ltb y x then y else x.
Definition maximum (x y : num) : num := if is_nan x || is_nan y then NaN else if ltb x y then y else x.

(** np.fmin, np.fmax: the other one if one is NaN *)
Definition fmin (x y : num) : num := if is_nan x then y else if is_nan y then x else minimum x y.
Definition fmax (x y : num) : num := if is_nan x then y else if is_nan y then x else maximum x y.

(** np.sum / np.amin / np.amax / np.nansum / np.nanmin / np.nanmax of the numbers along an axis.
    np.amin and np.amax of nothing raise; this cannot happen here. *)
Definition np_sum (l : list num) : num := fold_right add zero l.
Definition np_amin (l : list num) : num := fold_right minimum PInf l.
Definition np_amax (l : list num) : num := fold_right maximum MInf l.
Definition nan_to_zero (x : num) : num := if is_nan x then zero else x.
Definition np_nansum (l : list num) : num := np_sum (map nan_to_zero l).
Definition np_nanmin (l : list num) : num := fold_right fmin NaN l.
Definition np_nanmax (l : list num) : num := fold_right fmax NaN l.
