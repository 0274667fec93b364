(** Vocabulary for regression on several variables. *)
From Coq Require Import ZArith List QArith_base Qcanon.
From Verif Require Import SortSpec IndexModel IndexSpec ArrModel ViewModel ViewSpec AxisModel AxisSpec VarOpsModel VarOpsSpec NumModel ReduceSpec UfuncSpec UfuncModel RegressModel RegressSpec MultiModel.
Import ListNotations.
Open Scope Z_scope.

(** one observation: the values of the regressors and of Y *)
Definition observation : Type := (list Qc * Qc)%type.
Definition dot (a b : list Qc) : Qc := total (map (fun '(x, y) => (x * y)%Qc) (combine a b)).
(** the sum of the squares of Y - sum_i b_i X_i *)
Definition residual (l : list observation) (bs : list Qc) : Qc := total (squares (map (fun '(xs, y) => (y - dot xs bs)%Qc) l)).
(** the only coefficients with the least residual *)
Definition best_fit (l : list observation) (bs : list Qc) : Prop :=
  forall cs, length cs = length bs -> (residual l bs <= residual l cs)%Qc /\ (residual l cs = residual l bs -> cs = bs).
(** some combination of the regressors is 0 in all observations *)
Definition dependent (n : nat) (l : list observation) : Prop :=
  exists ds, length ds = n /\ (exists d, In d ds /\ d <> Q2Qc 0) /\ forall xs y, In (xs, y) l -> dot xs ds = Q2Qc 0.

(** matrices, as lists of rows *)
Definition square (n : nat) (m : list (list Qc)) : Prop := length m = n /\ Forall (fun r => length r = n) m.
Definition times_vector (m : list (list Qc)) (v : list Qc) : list Qc := map (fun r => dot r v) m.
(** [w] undoes [m], and [m] undoes [w] *)
Definition inverse_of (n : nat) (m w : list (list Qc)) : Prop :=
  square n w /\ forall v, length v = n -> times_vector w (times_vector m v) = v /\ times_vector m (times_vector w v) = v.
(** np.linalg.inv inverts every matrix of n x n numbers unless it maps some vector other than 0 to 0 *)
Definition inverts (n : nat) (inv : list (list num) -> option (list (list num))) : Prop :=
  forall m, square n m ->
  match inv (map (map Fin) m) with
  | Some w => exists w', w = map (map Fin) w' /\ inverse_of n m w'
  | None => exists v, length v = n /\ (exists d, In d v /\ d <> Q2Qc 0) /\ Forall (fun r => dot r v = Q2Qc 0) m
  end.

(** the axes of all variables fit together, and none is empty *)
Definition fitting_all (vars : list (var axis num)) : Prop :=
  let inputs := flat_map var_axes vars in
  (forall a, In a inputs -> tight_axis a /\ 0 < axis_len a) /\ (forall a b, In a inputs -> In b inputs -> compatible a b).
(** all values are numbers *)
Definition all_finite (x : var axis num) (D : list Z -> num) : Prop := forall q, position (var_shape x) q -> exists v, D q = Fin v.
(** the axes of the result and those regressed over: shared by [Y] and the combined axes of the regressors *)
Definition divides (env : axenv) (Xs : list (var axis num)) (Y : var axis num) (axes : option (list nat)) (outer over : list axis) : Prop :=
  exists XA, combine_axes env (map var_axes Xs) = Some XA /\ splits env (grid XA) Y axes outer over.
(** the observations at the positions [k] ++ [r], for all [r] *)
Definition observed (Xs : list (var axis num)) (Y : var axis num) (DXs : list (list Z -> num)) (DY : list Z -> num) (outer over : list axis) (k : list Z) (l : list observation) : Prop :=
  Forall2 (fun r '(xs, y) =>
      Forall2 (fun XD x => value_there (fst XD) (snd XD) (outer ++ over) (k ++ r) (Fin x)) (combine Xs DXs) xs /\ length xs = length Xs /\
      value_there Y DY (outer ++ over) (k ++ r) (Fin y))
    (positions (map axis_len over)) l.
(** the sums of the products of two regressors, and of a regressor and Y *)
Definition gram (n : nat) (l : list observation) : list (list Qc) :=
  map (fun i => map (fun j => total (map (fun '(xs, y) => (nth i xs (Q2Qc 0) * nth j xs (Q2Qc 0))%Qc) l)) (seq 0 n)) (seq 0 n).

(** the results at one point *)
Definition multi_result (sqrt : num -> num) (cdf : num -> num -> num) (n : nat) (N_fac : option Z) (l : list observation) (f : mfit) : Prop :=
  let N := IndexSpec.zlen l in
  let N_eff := match N_fac with Some k => N / k | None => N end in
  exists bs w, best_fit l bs /\ length bs = n /\ inverse_of n (gram n l) w /\
    let e := residual l bs in
    m_beta f = map Fin bs /\
    m_se f = sqrt (div (Fin e) (num_of_Z N_eff)) /\
    m_r2 f = sub (num_of_Z 1) (div (Fin e) (Fin (spread (map snd l)))) /\
    m_covb f = map (map (fun v => div (Fin (e * v)%Qc) (num_of_Z N_eff))) w /\
    m_sb f = map (fun i => sqrt (div (Fin (e * nth i (nth i w []) (Q2Qc 0))%Qc) (num_of_Z N_eff))) (seq 0 n) /\
    m_p f = map (fun i => mul (num_of_Z 2) (sub (num_of_Z 1) (cdf (num_abs (div (Fin (nth i bs (Q2Qc 0))) (nth i (m_sb f) NaN))) (num_of_Z (N_eff - Z.of_nat n))))) (seq 0 n).
