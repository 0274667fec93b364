(** Vocabulary for differences, derivatives and integrals along an axis. *)
From Coq Require Import ZArith List QArith_base Qcanon.
From Verif Require Import SortSpec IndexModel IndexSpec ArrModel ViewModel ViewSpec AxisModel AxisSpec VarOpsModel VarOpsSpec ReduceSpec UfuncModel NumModel StencilModel.
Import ListNotations.
Open Scope Z_scope.

(** [q] with coordinate [d] replaced by [i] *)
Definition moved (q : list Z) (d : nat) (i : Z) : list Z := set_at q d i.

(** the n-th forward difference of [f] at [i] *)
Fixpoint difference {V} (minus : V -> V -> V) (n : nat) (f : Z -> V) (i : Z) : V :=
  match n with O => f i | S n => minus (difference minus n f (i + 1)) (difference minus n f i) end.

(** binomial coefficients *)
Fixpoint binomial (n k : nat) : Z :=
  match n, k with
  | _, O => 1
  | O, S _ => 0
  | S n, S k => binomial n k + binomial n (S k)
  end.
Definition sign (k : nat) : Z := if Nat.even k then 1 else -1.
Definition of_Z (z : Z) : Qc := Q2Qc (inject_Z z).
(** f 0 + ... + f (n - 1) *)
Definition sum_to (n : nat) (f : nat -> Qc) : Qc := total (map f (seq 0 n)).

(** [dx] has the axes number [al] of [x], in this order, [d] among them *)
Definition given_along {V} (x : var axis V) (d : nat) (dx : var axis V) (al : list nat) : Prop :=
  NoDup al /\ In d al /\ Forall2 (fun a i => nth_error (var_axes x) i = Some a) (var_axes dx) al.
(** its element that belongs to position [q] of [x] *)
Definition restricted_to {V} (al : list nat) (X : list Z -> V) (q : list Z) : V := X (map (fun i => nth i q 0) al).

(** the two points between which the derivative at point [i] of [n] points is taken *)
Definition between (df : stencil) (n i l r : Z) : Prop :=
  match df with
  | Centre => (i = 0 /\ l = 0 /\ r = 1) \/ (i = n - 1 /\ l = n - 2 /\ r = n - 1) \/ (0 < i < n - 1 /\ l = i - 1 /\ r = i + 1)
  | Left => (i = 0 /\ l = 0 /\ r = 1) \/ (0 < i /\ l = i - 1 /\ r = i)
  | Right => (i = n - 1 /\ l = n - 2 /\ r = n - 1) \/ (i < n - 1 /\ l = i /\ r = i + 1)
  end.
(** the three points used for the second derivative *)
Definition among (n i l r : Z) : Prop :=
  (i = 0 /\ l = 2 /\ r = 1) \/ (i = n - 1 /\ l = n - 2 /\ r = n - 3) \/ (0 < i < n - 1 /\ l = i - 1 /\ r = i + 1).

(** values of a variable along axis [d] that are different from each other *)
Definition distinct_along (s : list Z) (d : nat) (X : list Z -> Qc) : Prop :=
  forall q i j, position s q -> position s (moved q d i) -> position s (moved q d j) -> X (moved q d i) = X (moved q d j) -> i = j.
(** a coefficient that does not change along axis [d] *)
Definition steady {V} (d : nat) (c : list Z -> V) : Prop := forall q i, c (moved q d i) = c q.

(** the coordinate with respect to which [x] is differentiated or integrated along axis [d]: the
    variable [dx] or, without it, the values of the axis; [X q] is the one that belongs to position [q] of [x] *)
Definition coordinates (env : axenv) (x : var axis num) (d : nat) (dx : option (var axis num)) (X : list Z -> num) : Prop :=
  match dx with
  | Some dx => exists al X0, responds env dx X0 /\ given_along x d dx al /\ forall q, X q = restricted_to al X0 q
  | None => forall a q, nth_error (var_axes x) d = Some a -> X q = Fin (Q2Qc (nth (Z.to_nat (nth d q 0)) (axis_vals a) 0%Q))
  end.

(** the value an integral starts from: 0, a number, or a variable without axis [d]; [V0 q] is the one that belongs to position [q] of [x] *)
Definition starts (env : axenv) (x : var axis num) (d : nat) (v0 : option (arg num)) (V0 : list Z -> num) : Prop :=
  match v0 with
  | None => forall q, V0 q = zero
  | Some (ANum c) => forall q, V0 q = c
  | Some (AVar w) => exists al W, responds env w W /\ NoDup al /\ ~ In d al /\
      Forall2 (fun a i => nth_error (var_axes x) i = Some a) (var_axes w) al /\ forall q, V0 q = restricted_to al W q
  end.
(** the contribution of the interval between the points [k] and [k + 1], from the values [f] and the coordinates [c];
    [cumsum] adds the value at point [k + 1] *)
Definition contribution (type : rule) (f c : Z -> num) (k : Z) : num :=
  let width := sub (c (k + 1)) (c k) in
  match type with
  | Trapz => mul (mul half width) (add (f k) (f (k + 1)))
  | Rectl => mul width (f k)
  | Rectr => mul width (f (k + 1))
  | Cumsum => f (k + 1)
  end.
(** v + t 1 + ... + t n, in this order *)
Definition plus_all (v : num) (l : list num) : num := fold_left add l v.
(** the integral up to point [i] of [n] points, from the first point, or ([back]) from the last one *)
Definition integral (back : bool) (n : Z) (v : num) (t : Z -> num) (i : Z) : num :=
  if back then plus_all v (map t (rev (arange i (n - 1) 1))) else plus_all v (map t (arange 0 i 1)).
(** the data of the variable [y] are [E], whatever part of it is read *)
Definition computes {V} (env : axenv) (y : var axis V) (E : list Z -> V) : Prop :=
  responds env y E /\ forall junk, delivers env junk y E.
(** the value of the second derivative at [c] for the values [fl, fc, fr] at the points [l, c, r] *)
Definition second_difference (fl fc fr l c r : num) : num :=
  let w := div (num_of_Z 2) (mul (mul (sub r c) (sub c l)) (sub r l)) in
  add (add (mul (mul (sub r c) w) fl) (mul (mul (sub l r) w) fc)) (mul (mul (sub c l) w) fr).
