(** Model of /repo/pygeode/stats.py:391-592 (multiple_regress).
    [sqrt], [cdf] and [inv] stand for np.sqrt, scipy's tdist.cdf and np.linalg.inv (None: LinAlgError).  Each output variable is modelled as one function;
    names, attributes, the choice of the output and progress bars are left out.  [ra], [ra2] are the axes of the regressors (NonCoordinateAxis). *)
From Coq Require Import ZArith List Bool QArith_base Qcanon.
From Verif Require Import IndexModel IndexSpec ArrModel ViewModel AxisModel VarOpsModel NumModel ReduceModel UfuncModel RegressModel.
Import ListNotations.
Open Scope Z_scope.

(** Var(axes, values=a): the shape must match (var.py:144) *)
Definition stored {V} (axes : list axis) (a : arr V) : option (ViewModel.var axis V) :=
  if list_eq_dec Z.eq_dec (shape a) (map axis_len axes) then Some (Var axes (Values a)) else None.
(** np.sum(a * b) *)
Definition np_dot (a b : list num) : num := np_sum (map (fun '(x, y) => mul x y) (combine a b)).
(** a variable on these axes; only the axes count *)
Definition grid (axes : list axis) : ViewModel.var axis num := Var axes (Values (Arr (map axis_len axes) (fun _ => zero))).

Section Multi.
Context (env : axenv) (junk : list Z -> num) (MAX_ARRAY_SIZE : Z) (sqrt : num -> num) (cdf : num -> num -> num) (inv : list (list num) -> option (list (list num))).
Notation var := (ViewModel.var axis num).

(* stats.py:464-481: the axes of the result and those regressed over *)
Definition multi_axes (Xs : list var) (Y : var) (axes : option (list nat)) : option (list axis * list axis) :=
  match combine_axes env (map var_axes Xs) with Some XA => pair_axes env (grid XA) Y axes | None => None end.
(* stats.py:501-511: one of the sums; [f] makes the summand of the data of the variables *)
Definition multi_sum (vars : list var) (oaxes raxes : list axis) (f : list (arr num) -> option (arr num)) : option (arr num) :=
  match full_view env oaxes with
  | None => None
  | Some oview =>
    accumulate env junk MAX_ARRAY_SIZE vars (oaxes ++ raxes) oview zero
      (fun data => match f data with Some a => Some (np_reduce np_sum a (seq (length oaxes) (length raxes))) | None => None end) add
  end.
Definition alone (i : nat) (data : list (arr num)) : option (arr num) := nth_error data i.
Definition product_of (i j : nat) (data : list (arr num)) : option (arr num) :=
  match nth_error data i, nth_error data j with
  | Some a, Some b => apply_op (fun l => match l with [a; b] => mul a b | _ => NaN end) [Array a; Array b]
  | _, _ => None
  end.
(** sums at one point: of y, of its square, of x_i y and of x_i x_j *)
Record moments := Moments { g_y : num; g_yy : num; g_xy : list num; g_xx : list (list num) }.
(* stats.py:501-516; ydata comes last; x_i x_j is computed for j <= i and copied for the others *)
Definition multi_sums (Xs : list var) (Y : var) (oaxes raxes : list axis) : option (arr moments) :=
  let sum := multi_sum (Xs ++ [Y]) oaxes raxes in
  let Nr := length Xs in
  match sum (alone Nr), sum (product_of Nr Nr), sequence (map (fun i => sum (product_of i Nr)) (seq 0 Nr)),
        sequence (map (fun i => sequence (map (fun j => sum (product_of (Nat.max i j) (Nat.min i j))) (seq 0 Nr))) (seq 0 Nr)) with
  | Some y, Some yy, Some xy, Some xx =>
      Some (Arr (map axis_len oaxes) (fun p => Moments (val y p) (val yy p) (map (fun a => val a p) xy) (map (map (fun a => val a p)) xx)))
  | _, _, _, _ => None
  end.

Record mfit := MFit { m_beta : list num; m_r2 : num; m_p : list num; m_sb : list num; m_covb : list (list num); m_se : num }.
(* stats.py:527-587 at one point; [w] is the inverse of xx *)
Definition mfit_of (N : Z) (N_fac : option Z) (g : moments) (w : list (list num)) : mfit :=
  let beta := map (fun row => np_dot (g_xy g) row) w in
  let vare := np_dot (g_xy g) beta in
  let N_eff := match N_fac with None => N | Some f => N / f end in
  let rest := sub (g_yy g) vare in
  let sb := map (fun '(i, row) => sqrt (div (mul rest (nth i row NaN)) (num_of_Z N_eff))) (combine (seq 0 (length w)) w) in
  MFit beta
    (sub (num_of_Z 1) (div rest (sub (g_yy g) (div (mul (g_y g) (g_y g)) (num_of_Z N)))))
    (map (fun '(b, s) => mul (num_of_Z 2) (sub (num_of_Z 1) (cdf (num_abs (div b s)) (num_of_Z (N_eff - Z.of_nat (length w)))))) (combine beta sb))
    sb
    (map (map (fun v => div (mul rest v) (num_of_Z N_eff))) w)
    (sqrt (div rest (num_of_Z N_eff))).
(* stats.py:518-525: the inverses at all points *)
Definition multi_fit (Xs : list var) (Y : var) (axes : option (list nat)) (N_fac : option Z) : option (list axis * arr mfit) :=
  match multi_axes Xs Y axes with
  | None => None
  | Some (oaxes, raxes) =>
    match raxes with
    | [] => None
    | _ =>
      match multi_sums Xs Y oaxes raxes with
      | None => None
      | Some s =>
        if forallb (fun p => match inv (g_xx (val s p)) with Some _ => true | None => false end) (product (map (fun n => arange 0 n 1) (shape s)))
        then Some (oaxes, Arr (shape s) (fun p => match inv (g_xx (val s p)) with Some w => mfit_of (prod (map axis_len raxes)) N_fac (val s p) w | None => MFit [] NaN [] [] [] NaN end))
        else None
      end
    end
  end.

(** an array with one element for each regressor in the last dimension *)
Definition stack_last (n : nat) (a : arr mfit) (f : mfit -> list num) : arr num :=
  Arr (shape a ++ [Z.of_nat n]) (fun q => nth (Z.to_nat (last q 0)) (f (val a (removelast q))) NaN).
(** np.array of a list of arrays *)
Definition stack_first (n : nat) (a : arr mfit) (f : mfit -> list num) : arr num :=
  Arr (Z.of_nat n :: shape a) (fun q => match q with i :: k => nth (Z.to_nat i) (f (val a k)) NaN | [] => NaN end).
(* stats.py:549-552 *)
Definition multi_beta (ra : axis) Xs Y axes N_fac : option var :=
  match multi_fit Xs Y axes N_fac with Some (oaxes, a) => stored (oaxes ++ [ra]) (stack_last (length Xs) a m_beta) | None => None end.
(* stats.py:554-559, 586-590 *)
Definition multi_r2 Xs Y axes N_fac : option var :=
  match multi_fit Xs Y axes N_fac with Some (oaxes, a) => stored oaxes (map_arr m_r2 a) | None => None end.
Definition multi_se Xs Y axes N_fac : option var :=
  match multi_fit Xs Y axes N_fac with Some (oaxes, a) => stored oaxes (map_arr m_se a) | None => None end.
(* stats.py:561-572: np.transpose(np.array(...), [Nd] + list(range(Nd))) *)
Definition multi_transposed (f : mfit -> list num) (ra : axis) Xs Y axes N_fac : option var :=
  match multi_fit Xs Y axes N_fac with
  | Some (oaxes, a) =>
    match transpose (stack_first (length Xs) a f) (length oaxes :: seq 0 (length oaxes)) with Some t => stored (oaxes ++ [ra]) t | None => None end
  | None => None
  end.
Definition multi_p := multi_transposed m_p.
Definition multi_sb := multi_transposed m_sb.
(* stats.py:574-584 *)
Definition multi_covb (ra ra2 : axis) Xs Y axes N_fac : option var :=
  match multi_fit Xs Y axes N_fac with
  | Some (oaxes, a) =>
    stored (oaxes ++ [ra; ra2])
      (Arr (shape a ++ [Z.of_nat (length Xs); Z.of_nat (length Xs)])
           (fun q => let k := removelast (removelast q) in nth (Z.to_nat (last q 0)) (nth (Z.to_nat (last (removelast q) 0)) (m_covb (val a k)) []) NaN))
  | None => None
  end.
End Multi.
