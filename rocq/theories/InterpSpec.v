(** Vocabulary for interpolation along an axis. *)
From Coq Require Import ZArith List Bool QArith_base Qcanon.
From Verif Require Import SortSpec IndexModel IndexSpec ArrModel ViewModel ViewSpec AxisModel AxisSpec VarOpsModel VarOpsSpec ReduceModel ReduceSpec NumModel StencilModel StencilSpec SmoothSpec InterpModel.
Import ListNotations.
Open Scope Z_scope.

(** the coordinate along axis [d] of the axes [axes]: the variable [dx], which has some of these axes, [d] among them, or, without it,
    the values of the axis; [X q] is the one that belongs to position [q] *)
Definition coordinates_on (env : axenv) (axes : list axis) (d : nat) (dx : option (var axis num)) (X : list Z -> num) : Prop :=
  match dx with
  | Some dx => exists al X0, responds env dx X0 /\ NoDup al /\ In d al /\ Forall2 (fun a i => nth_error axes i = Some a) (var_axes dx) al /\
                 forall q, X q = X0 (map (fun i => nth i q 0) al)
  | None => forall a q, nth_error axes d = Some a -> X q = Fin (Q2Qc (nth (Z.to_nat (nth d q 0)) (axis_vals a) 0%Q))
  end.

(** the finite coordinates c(0), ..., c(n-1) increase ([up]) or decrease *)
Definition monotone (up : bool) (n : Z) (c : Z -> num) : Prop :=
  forall i j p q, 0 <= i -> i < j -> j < n -> c i = Fin p -> c j = Fin q -> if up then (p < q)%Qc else (q < p)%Qc.
(** two neighbours of them are finite *)
Definition neighbours (n : Z) (c : Z -> num) : Prop := n <= 1 \/ exists i p q, 0 <= i < n - 1 /\ c i = Fin p /\ c (i + 1) = Fin q.

(** point number [j] of the coordinates [x] and values [y]: both finite *)
Definition point (n : Z) (x y : Z -> num) (j : Z) (p v : Qc) : Prop := 0 <= j < n /\ x j = Fin p /\ y j = Fin v.
(** all the points, by increasing coordinate *)
Definition the_points (n : Z) (x y : Z -> num) (pts : list (Qc * Qc)) : Prop :=
  (forall p v, In (p, v) pts <-> exists j, point n x y j p v) /\
  (forall i j a b, nth_error pts i = Some a -> nth_error pts j = Some b -> (i < j)%nat -> (fst a < fst b)%Qc).
Definition fins2 (pts : list (Qc * Qc)) : list (num * num) := map (fun '(p, v) => (Fin p, Fin v)) pts.

(** the value at [t] for points with increasing coordinates, when a library is used between them, with the slopes [below] and [above] outside *)
Definition by_library (g : gsl) (below above : num) (pts : list (Qc * Qc)) (t w : num) : Prop :=
  if zlen pts <? min_size g then w = NaN
  else forall p v p' v', nth_error pts 0 = Some (p, v) -> nth_error pts (length pts - 1) = Some (p', v') ->
    (ltb t (Fin p) = true -> w = add (gsl_value g (fins2 pts) (Fin p)) (mul below (sub t (Fin p)))) /\
    (ltb (Fin p') t = true -> w = add (gsl_value g (fins2 pts) (Fin p')) (mul above (sub t (Fin p')))) /\
    (ltb t (Fin p) = false -> ltb (Fin p') t = false -> w = gsl_value g (fins2 pts) t).
(** the library makes no trouble if the coordinates are increasing *)
Definition accepts (g : gsl) : Prop :=
  1 <= min_size g /\ forall pts, (forall i j a b, nth_error pts i = Some a -> nth_error pts j = Some b -> (i < j)%nat -> (fst a < fst b)%Qc) ->
    min_size g <= zlen pts -> gsl_init g (fins2 pts) = true.

(** linear interpolation at [t] of the values [y] at the coordinates [x] *)
Definition chord (n : Z) (x y : Z -> num) (below above : num) (t w : num) : Prop :=
  (* between two neighbouring points *)
  (forall i j p v p' v' s, point n x y i p v -> point n x y j p' v' -> (p < p')%Qc ->
     (forall k r u, point n x y k r u -> (r <= p)%Qc \/ (p' <= r)%Qc) -> t = Fin s -> (p <= s)%Qc -> (s <= p')%Qc ->
     w = Fin (v + (s - p) / (p' - p) * (v' - v))%Qc) /\
  (* below the least point *)
  (forall i j p v p' v', point n x y i p v -> point n x y j p' v' -> i <> j -> (forall k r u, point n x y k r u -> (p <= r)%Qc) ->
     ltb t (Fin p) = true -> w = add (Fin v) (mul below (sub t (Fin p)))) /\
  (* above the greatest *)
  (forall i j p v p' v', point n x y i p v -> point n x y j p' v' -> i <> j -> (forall k r u, point n x y k r u -> (r <= p)%Qc) ->
     ltb (Fin p) t = true -> w = add (Fin v) (mul above (sub t (Fin p)))) /\
  (* fewer than two points *)
  ((forall i j p v p' v', point n x y i p v -> point n x y j p' v' -> i = j) -> w = NaN) /\
  (t = NaN -> w = NaN).

(** [r] with [j] at place [d], the places of the others shifted *)
Definition across (r : list Z) (d : nat) (j : Z) : list Z := insert_at r d j.
(** the variable [x] with data [D], its axis [d] with coordinates [X] and the target axis [b] with coordinates [XO] fit together:
    in every row along axis [d] the coordinates are monotone, all in the same direction, and at two neighbouring points of it they are finite *)
Definition interpolable (env : axenv) (x : var axis num) (D : list Z -> num) (d : nat) (a b : axis) (inx outx : option (var axis num)) (X XO : list Z -> num) (up : bool) : Prop :=
  responds env x D /\ nth_error (var_axes x) d = Some a /\ 0 < axis_len a /\
  coordinates_on env (var_axes x) d inx X /\ coordinates_on env (remove_at (var_axes x) d ++ [b]) (length (var_axes x) - 1) outx XO /\
  separate (remove_at (var_axes x) d ++ [b]) /\
  forall r, position (map axis_len (remove_at (var_axes x) d)) r ->
    monotone up (axis_len a) (fun j => X (across r d j)) /\ neighbours (axis_len a) (fun j => X (across r d j)).
(** the position of the result in the row [r], at place [k] along the new axis *)
Definition target (transpose : bool) (r : list Z) (d : nat) (k : Z) : list Z := if transpose then r ++ [k] else across r d k.
Definition target_axes (transpose : bool) (axes : list axis) (d : nat) (b : axis) : list axis := if transpose then remove_at axes d ++ [b] else set_at axes d b.
