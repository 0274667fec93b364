(** Vocabulary for the tests of means. *)
From Coq Require Import ZArith List QArith_base Qcanon.
From Verif Require Import SortSpec IndexModel IndexSpec ArrModel ViewModel AxisModel AxisSpec VarOpsSpec NumModel ReduceSpec RegressModel RegressSpec MeansModel.
Import ListNotations.
Open Scope Z_scope.

(** the number of values, divided by N_fac and rounded down *)
Definition counted (N_fac : option Z) (l : list Qc) : Z := match N_fac with Some f => IndexSpec.zlen l / f | None => IndexSpec.zlen l end.
(** the variance of the mean of this many independent values *)
Definition mean_variance (n : Z) (l : list Qc) : Qc := (variance l / Q2Qc (inject_Z n))%Qc.
(** the two-sided p-value and the confidence interval for the estimate [d] with standard deviation [s] *)
Definition p_value (cdf : num -> num -> num) (d s df : num) : num := mul (num_of_Z 2) (sub (num_of_Z 1) (cdf (num_abs (div d s)) df)).
Definition interval (ppf : num -> num -> num) (alpha s df : num) : num := mul (ppf (sub (num_of_Z 1) (div alpha (num_of_Z 2))) df) s.

(** the difference of the means of [l] and [m], with the degrees of freedom of Welch's test *)
Definition welch_test (sqrt : num -> num) (cdf ppf : num -> num -> num) (alpha : num) (Nx_fac Ny_fac : option Z) (l m : list Qc) (t : test) : Prop :=
  let n := counted Nx_fac l in
  let k := counted Ny_fac m in
  let tested := 1 < n /\ 1 < k /\ (differ l \/ differ m) in
  ((2 <= length l)%nat -> (2 <= length m)%nat -> t_d t = Fin (average l - average m)%Qc) /\
  (tested -> let v := mean_variance n l in let w := mean_variance k m in
     t_df t = Fin ((v + w) * (v + w) / (v * v / Q2Qc (inject_Z (n - 1)) + w * w / Q2Qc (inject_Z (k - 1))))%Qc /\
     t_p t = p_value cdf (t_d t) (sqrt (Fin (v + w)%Qc)) (t_df t) /\ t_ci t = interval ppf alpha (sqrt (Fin (v + w)%Qc)) (t_df t)) /\
  (~ tested -> t_df t = NaN /\ t_p t = NaN /\ t_ci t = NaN).

(** what paired_difference makes of the differences [l] *)
Definition paired_result (sqrt : num -> num) (cdf ppf : num -> num -> num) (alpha : num) (N_fac : option Z) (l : list Qc) (t : test) : Prop :=
  let n := counted N_fac l in
  let tested := 1 < n /\ differ l in
  ((2 <= length l)%nat -> t_d t = Fin (average l)) /\ t_df t = num_of_Z (n - 1) /\
  (tested -> let s := sqrt (Fin (variance l / Q2Qc (inject_Z (n - 1)))%Qc) in t_p t = p_value cdf (t_d t) s (t_df t) /\ t_ci t = interval ppf alpha s (t_df t)) /\
  (~ tested -> t_p t = zero /\ t_ci t = zero).

(** the mean of [l] and its difference from zero; at least two values *)
Definition mean_test (sqrt : num -> num) (cdf ppf : num -> num -> num) (alpha : num) (N_fac : option Z) (l : list Qc) (z : zero_test) : Prop :=
  let n := counted N_fac l in
  (l <> [] -> z_m z = Fin (average l)) /\
  ((2 <= length l)%nat -> 1 <= n ->
     let s := sqrt (Fin (mean_variance n l)) in let df := num_of_Z (n - 1) in
     z_ci z = interval ppf alpha s df /\ (differ l -> z_p z = p_value cdf (z_m z) s df)).

(** the differences of the values of [X] and [Y] at the positions [qs] of the axes [src] *)
Definition differences_at (X Y : var axis num) (DX DY : list Z -> num) (src : list axis) (qs : list (list Z)) (l : list num) : Prop :=
  Forall2 (fun q v => exists a b, value_there X DX src q a /\ value_there Y DY src q b /\ v = sub a b) qs l.
