(** Model of /repo/pygeode/stats.py:594-1129 (difference, paired_difference, isnonzero).
    [sqrt], [cdf] and [ppf] stand for np.sqrt and scipy's tdist.cdf and tdist.ppf.  The output variables are modelled as one variable of records; names,
    attributes, the choice of the output and progress bars are left out.  Axes are given by their positions: [ri] among the combined axes, [ix], [iy] among
    those of X and Y (the code looks up names; without names, axes=None, it iterates over None and raises).  N_fac is an integer. *)
From Coq Require Import ZArith List Bool QArith_base Qround Qcanon.
From Verif Require Import IndexModel IndexSpec ArrModel ViewModel AxisModel VarOpsModel NumModel ReduceModel UfuncModel RegressModel.
Import ListNotations.
Open Scope Z_scope.

(** x // f *)
Definition floor_div (x : num) (f : Z) : num :=
  match x with Fin q => Fin (Q2Qc (inject_Z (Qfloor (this q / inject_Z f)))) | _ => x end.
Definition one : num := num_of_Z 1.
Definition effective (N : num) (N_fac : option Z) : num := match N_fac with Some f => floor_div N f | None => N end.

Section Means.
Context (env : axenv) (junk : list Z -> num) (MAX_ARRAY_SIZE : Z) (sqrt : num -> num) (cdf ppf : num -> num -> num).
Notation var := (ViewModel.var axis num).

(** the sums of the values and of their squares, and the number of values *)
Record sample := Sample { a_sum : num; a_sq : num; a_n : num }.
(* stats.py:700-719, 1067-1074: np.nansum of two arrays needs arrays with the same number of dimensions *)
Definition sample_sums (x : var) (indices : list nat) (oaxes : list axis) : option (arr sample) :=
  if negb (Nat.eqb (length (kept_axes (var_axes x) indices)) (length oaxes)) then None else
  match full_view env oaxes with
  | None => None
  | Some v =>
    match nansum_view env junk MAX_ARRAY_SIZE x indices v, nansumsq_view env junk MAX_ARRAY_SIZE x indices v, count_view env junk MAX_ARRAY_SIZE x indices v with
    | Some s, Some s2, Some n => Some (Arr (shape s) (fun p => Sample (val s p) (val s2 p) (val n p)))
    | _, _, _ => None
    end
  end.

(** *** difference *)
Record test := Test { t_d : num; t_df : num; t_p : num; t_ci : num }.
(* stats.py:721-769: at one point of the output *)
Definition welch (alpha : num) (Nx_fac Ny_fac : option Z) (sx sy : sample) : test :=
  let '(Sample x xx Nx) := sx in
  let '(Sample y yy Ny) := sy in
  let imsk := ltb one Nx && ltb one Ny in
  let xx := positive_part (if imsk then div (sub xx (div (mul x x) Nx)) (sub Nx one) else xx) in
  let x := if imsk then div x Nx else x in
  let yy := positive_part (if imsk then div (sub yy (div (mul y y) Ny)) (sub Ny one) else yy) in
  let y := if imsk then div y Ny else y in
  let eNx := effective Nx Nx_fac in
  let eNy := effective Ny Ny_fac in
  let emsk := ltb one eNx && ltb one eNy in
  let d := sub x y in
  let xx := if emsk then div xx eNx else xx in
  let yy := if emsk then div yy eNy else yy in
  let den := if emsk then add (div (mul xx xx) (sub eNx one)) (div (mul yy yy) (sub eNy one)) else zero in
  let dmsk := ltb zero den in
  let df := if dmsk then div (mul (add xx yy) (add xx yy)) den else zero in
  let den := if emsk then sqrt (add xx yy) else den in
  let dmsk := dmsk && ltb zero den in
  let p := if dmsk then mul two (sub one (cdf (num_abs (div d den)) df)) else zero in
  let ci := if dmsk then mul (ppf (sub one (div alpha two)) df) den else zero in
  if dmsk then Test d df p ci else Test d NaN NaN NaN.
(* stats.py:666-700 *)
Definition difference (X Y : var) (ri ix iy : list nat) (alpha : num) (Nx_fac Ny_fac : option Z) : option (ViewModel.var axis test) :=
  match combine_axes env [var_axes X; var_axes Y] with
  | None => None
  | Some src =>
    if negb (forallb (fun i => mem_nat i (snd (shared_axes env src (var_axes X) (var_axes Y)))) ri) then None else
    let oaxes := kept_axes src ri in
    if (count_reduced (var_axes X) ix <=? 1) || (count_reduced (var_axes Y) iy <=? 1) then None else
    match sample_sums X ix oaxes, sample_sums Y iy oaxes with
    | Some sx, Some sy => match zip_to (welch alpha Nx_fac Ny_fac) sx sy with Some r => Some (Var oaxes (Values r)) | None => None end
    | _, _ => None
    end
  end.

(** *** paired_difference *)
(* stats.py:912-950: at one point of the output *)
Definition paired_test (alpha : num) (N_fac : option Z) (s : sample) : test :=
  let '(Sample d dd N) := s in
  let imsk := ltb one N in
  let dd := positive_part (if imsk then div (sub dd (div (mul d d) N)) (sub N one) else dd) in
  let d := if imsk then div d N else d in
  let eN := effective N N_fac in
  let emsk := ltb one eN in
  let den := if emsk then sqrt (div dd (sub eN one)) else zero in
  let dmsk := ltb zero den in
  let p := if dmsk then mul two (sub one (cdf (num_abs (div d den)) (sub eN one))) else zero in
  let ci := if dmsk then mul (ppf (sub one (div alpha two)) (sub eN one)) den else zero in
  Test d (sub eN one) p ci.
(* stats.py:902-914: the differences come in the order of the combined axes; they are summed over the positions [ix] of the axes of X *)
Definition difference_sum (X Y : var) (src : list axis) (ix : list nat) (oaxes : list axis) (pre : num -> num) : option (arr num) :=
  match full_view env oaxes with
  | None => None
  | Some v =>
    accumulate env junk MAX_ARRAY_SIZE [X; Y] src v NaN
      (fun data => match apply_op (fun l => match l with [a; b] => sub a b | _ => NaN end) (map Array data) with
                   | Some d => Some (np_reduce np_nansum (map_arr pre d) ix)
                   | None => None
                   end) (fun o b => np_nansum [o; b])
  end.
Definition paired_difference (X Y : var) (ri ix iy : list nat) (alpha : num) (N_fac : option Z) : option (ViewModel.var axis test) :=
  match combine_axes env [var_axes X; var_axes Y] with
  | None => None
  | Some src =>
    if negb (forallb (fun i => mem_nat i (snd (shared_axes env src (var_axes X) (var_axes Y)))) ri) then None else
    let oaxes := kept_axes src ri in
    let Nx := count_reduced (var_axes X) ix in
    let Ny := count_reduced (var_axes Y) iy in
    if negb ((if list_eq_dec Nat.eq_dec ix iy then true else false) && (Nx =? Ny)) || (Nx <=? 1) then None else
    let sum := difference_sum X Y src ix oaxes in
    match sum (fun v => v), sum (fun v => mul v v), sum not_nan with
    | Some d, Some dd, Some n => Some (Var oaxes (Values (Arr (shape d) (fun p => paired_test alpha N_fac (Sample (val d p) (val dd p) (val n p))))))
    | _, _, _ => None
    end
  end.

(** *** isnonzero *)
Record zero_test := ZeroTest { z_m : num; z_p : num; z_ci : num }.
(* stats.py:1076-1105: at one point of the output *)
Definition zero_point (alpha : num) (N_fac : option Z) (s : sample) : zero_test :=
  let '(Sample x xx Na) := s in
  let imsk := ltb zero Na in
  let xx := if imsk then sub xx (div (mul x x) Na) else xx in
  let xx := if imsk then div xx (sub Na one) else xx in
  let x := if imsk then div x Na else x in
  let eNa := effective Na N_fac in
  let sdom := if imsk then sqrt (div xx eNa) else zero in
  let dmsk := ltb zero sdom in
  let t := if dmsk then div (num_abs x) sdom else zero in
  let p := if imsk then mul two (sub one (cdf t (sub eNa one))) else zero in
  let ci := if imsk then mul (ppf (sub one (div alpha two)) (sub eNa one)) sdom else zero in
  ZeroTest x p ci.
(* stats.py:1045-1063 *)
Definition isnonzero (X : var) (ix : list nat) (alpha : num) (N_fac : option Z) : option (ViewModel.var axis zero_test) :=
  let oaxes := kept_axes (var_axes X) ix in
  if count_reduced (var_axes X) ix <=? 1 then None else
  match sample_sums X ix oaxes with
  | Some s => Some (Var oaxes (Values (map_arr (zero_point alpha N_fac) s)))
  | None => None
  end.
End Means.
