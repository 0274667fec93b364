(** Model of /repo/pygeode/stats.py:8-390 (correlate, regress) and of shared_axes, /repo/pygeode/tools.py:267-284.
    [sqrt] and [cdf] stand for np.sqrt and scipy's tdist.cdf.  The output variables are modelled as one variable of records;
    names, attributes, the choice of the output and progress bars are left out. *)
From Coq Require Import ZArith List Bool QArith_base Qcanon.
From Verif Require Import IndexModel IndexSpec ArrModel ViewModel AxisModel VarOpsModel NumModel ReduceModel UfuncModel.
Import ListNotations.
Open Scope Z_scope.

(** np.abs *)
Definition num_abs (x : num) : num := if ltb x zero then neg x else x.
(** np.tile *)
Definition tile {V} (a : arr V) (reps : list Z) : arr V :=
  Arr (map (fun '(n, r) => n * r) (combine (shape a) reps)) (fun p => val a (map (fun '(n, i) => i mod n) (combine (shape a) p))).
(** a[mask] = value *)
Definition put_where {V W} (test : W -> bool) (mask : arr W) (v : V) (a : arr V) : arr V :=
  Arr (shape a) (fun p => if test (val mask p) then v else val a p).

Section Regress.
Context (env : axenv) (junk : list Z -> num) (MAX_ARRAY_SIZE : Z) (sqrt : num -> num) (cdf : num -> num -> num).
Notation var := (ViewModel.var axis num).

(* tools.py:267-284 shared_axes *)
Definition maps_onto (axes : list axis) (a : axis) : bool := existsb (fun s => match axis_map_to env s a with Some _ => true | None => false end) axes.
Definition shared_axes (axes A B : list axis) : list nat * list nat :=
  let xor '(i, a) := xorb (maps_onto A a) (maps_onto B a) in
  let l := combine (seq 0 (length axes)) axes in
  (map fst (filter xor l), map fst (filter (fun ia => negb (xor ia)) l)).

(* stats.py:65-79, 237-252: the axes of the result and those reduced over; [axes] = positions in srcaxes (whichaxis) *)
Definition mem_nat (i : nat) (l : list nat) : bool := existsb (Nat.eqb i) l.
Definition pair_axes (X Y : var) (axes : option (list nat)) : option (list axis * list axis) :=
  match combine_axes env [var_axes X; var_axes Y] with
  | None => None
  | Some src =>
    let '(oi, ri) := shared_axes src (var_axes X) (var_axes Y) in
    let pick l := flat_map (fun i => match nth_error src i with Some a => [a] | None => [] end) l in
    match axes with
    | None => Some (pick oi, pick ri)
    | Some l => if forallb (fun i => mem_nat i ri) l then Some (pick (oi ++ filter (fun r => negb (mem_nat r l)) ri), pick l) else None
    end
  end.

(* stats.py:97-109, 268-279: the blocks with NaN wherever either is NaN, and their product *)
Definition paired (data : list (arr num)) : option (arr num * arr num * arr num) :=
  match data with
  | [xdata; ydata] =>
    match apply_op (fun l => match l with [a; b] => mul a b | _ => NaN end) [Array xdata; Array ydata] with
    | None => None
    | Some xydata =>
      let xbc := map (fun '(s1, s2) => s1 / s2) (combine (shape xydata) (shape xdata)) in
      let ybc := map (fun '(s1, s2) => s1 / s2) (combine (shape xydata) (shape ydata)) in
      Some (put_where is_nan xydata NaN (tile xdata xbc), put_where is_nan xydata NaN (tile ydata ybc), xydata)
    end
  | _ => None
  end.
(* stats.py:111-120, 281-290: one of the sums *)
Definition pair_sum (X Y : var) (oaxes raxes : list axis) (f : arr num * arr num * arr num -> arr num) : option (arr num) :=
  match full_view env oaxes with
  | None => None
  | Some oview =>
    accumulate env junk MAX_ARRAY_SIZE [X; Y] (oaxes ++ raxes) oview NaN
      (fun data => match paired data with
                   | Some t => Some (np_reduce np_nansum (f t) (seq (length oaxes) (length raxes)))
                   | None => None
                   end) (fun o b => np_nansum [o; b])
  end.
Definition squared (a : arr num) : arr num := map_arr (fun v => mul v v) a.
Record sums := Sums { s_x : num; s_y : num; s_xx : num; s_yy : num; s_xy : num; s_n : num }.
Definition pair_sums (X Y : var) (oaxes raxes : list axis) : option (arr sums) :=
  let sum := pair_sum X Y oaxes raxes in
  match sum (fun '(x, y, xy) => x), sum (fun '(x, y, xy) => y), sum (fun '(x, y, xy) => squared x), sum (fun '(x, y, xy) => squared y),
        sum (fun '(x, y, xy) => xy), sum (fun '(x, y, xy) => map_arr not_nan xy) with
  | Some x, Some y, Some xx, Some yy, Some xy, Some n =>
      Some (Arr (shape x) (fun p => Sums (val x p) (val y p) (val xx p) (val yy p) (val xy p) (val n p)))
  | _, _, _, _, _, _ => None
  end.

(** *** regress *)
Definition two : num := num_of_Z 2.
Record fit := Fit { f_m : num; f_b : num; f_r2 : num; f_p : num; f_sm : num; f_se : num }.
(* stats.py:292-345: at one point of the output *)
Definition fit_of (N_fac : option num) (s : sums) : fit :=
  let '(Sums x y xx yy xy Na) := s in
  let N_eff := sub (match N_fac with None => Na | Some f => div Na f end) two in
  let nmsk := ltb zero N_eff in
  let xx := if nmsk then sub xx (div (mul x x) Na) else xx in
  let yy := if nmsk then sub yy (div (mul y y) Na) else yy in
  let xy := if nmsk then sub xy (div (mul x y) Na) else xy in
  let dmsk := ltb zero xx in
  let m := if dmsk then div xy xx else zero in
  let b := if nmsk then div (sub y (mul m x)) Na else zero in
  let r2den := mul xx yy in
  let d2msk := ltb zero r2den in
  let r2 := if d2msk then div (mul xy xy) r2den else zero in
  let sige2 := if dmsk then div (sub yy (mul m xy)) N_eff else zero in
  let sigm := if dmsk then sqrt (div sige2 xx) else zero in
  let sige := if dmsk then sqrt sige2 else zero in
  let t := if dmsk then div (num_abs m) sigm else zero in
  let p := if dmsk then mul two (sub (num_of_Z 1) (cdf t N_eff)) else zero in
  let msk := nmsk && dmsk in
  Fit (if msk then m else NaN) (if msk then b else NaN) (if nmsk && d2msk then r2 else NaN) (if msk then p else NaN)
      (if msk then sigm else NaN) (if msk then sige else NaN).
Definition regress (X Y : var) (axes : option (list nat)) (N_fac : option num) : option (ViewModel.var axis fit) :=
  match pair_axes X Y axes with
  | Some (oaxes, raxes) =>
    match raxes with
    | [] => None
    | _ => match pair_sums X Y oaxes raxes with Some s => Some (Var oaxes (Values (map_arr (fit_of N_fac) s))) | None => None end
    end
  | None => None
  end.

(** *** correlate *)
Record corr := Corr { c_r : num; c_r2 : num; c_p : num }.
Definition eps : num := Fin (Q2Qc (1 # 100000000)).
(** not x <= 0 *)
Definition positive_part (x : num) : num := if ltb zero x || is_nan x then x else zero.
(* stats.py:122-152: at one point of the output *)
Definition corr_of (s : sums) : corr :=
  let '(Sums x y xx yy xy Na) := s in
  let imsk := ltb zero Na in
  let xx := positive_part (if imsk then sub xx (div (mul x x) Na) else xx) in
  let yy := positive_part (if imsk then sub yy (div (mul y y) Na) else yy) in
  let xy := if imsk then sub xy (div (mul x y) Na) else xy in
  let den := if imsk then sqrt (mul xx yy) else zero in
  let dmsk := ltb zero den in
  let rho := if dmsk then div xy (sqrt (mul xx yy)) else zero in
  let den := sub (num_of_Z 1) (mul rho rho) in
  let den := if ltb den eps then eps else den in
  let t := if imsk then mul (num_abs rho) (sqrt (div (sub Na two) den)) else zero in
  let p := if imsk then mul two (sub (num_of_Z 1) (cdf t (sub Na two))) else zero in
  let rho := if imsk && dmsk then rho else NaN in
  Corr rho (mul rho rho) (if imsk && dmsk then p else NaN).
(** without output axes, "den = 1 - rho**2" (stats.py:142) is a numpy scalar, no longer an array, and "den[den < eps] = eps" raises a TypeError *)
Definition correlate (X Y : var) (axes : option (list nat)) : option (ViewModel.var axis corr) :=
  match pair_axes X Y axes with
  | Some (oaxes, raxes) =>
    match oaxes with
    | [] => None
    | _ => match pair_sums X Y oaxes raxes with Some s => Some (Var oaxes (Values (map_arr corr_of s))) | None => None end
    end
  | None => None
  end.
End Regress.
