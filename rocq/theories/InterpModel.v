(** Model of /repo/pygeode/interp.py and interp.c.  Axis arguments are positions (whichaxis/getaxis are applied already) and the
    assertions about the axes of inx and outx (interp.py:67-80) are taken to hold; meta-data and the text of error messages are left out.
    int arithmetic does not overflow. *)
From Coq Require Import ZArith List Bool QArith_base Qcanon.
From Verif Require Import IndexModel IndexSpec ArrModel ViewModel AxisModel VarOpsModel ReduceModel NumModel StencilModel SmoothModel.
Import ListNotations.
Open Scope Z_scope.

(** *** the GNU Scientific Library *)
(* gsl_interp_type: the least number of points, whether gsl_interp_init succeeds, the value of the interpolating function
   at a place between the first and the last point *)
Record gsl := Gsl { min_size : Z; gsl_init : list (num * num) -> bool; gsl_value : list (num * num) -> num -> num }.
(* gsl_interp_eval_e *)
Definition gsl_eval (g : gsl) (pts : list (num * num)) (x : num) : num :=
  if ltb x (fst (hd (NaN, NaN) pts)) || ltb (fst (last pts (NaN, NaN))) x then NaN else gsl_value g pts x.
(* gsl_interp_linear: the coordinates have to be strictly increasing; the chord between the two neighbours *)
Fixpoint ascending (pts : list (num * num)) : bool :=
  match pts with
  | p :: ((q :: _) as t) => ltb (fst p) (fst q) && ascending t
  | _ => true
  end.
Fixpoint linear_value (pts : list (num * num)) (x : num) : num :=
  match pts with
  | (x0, y0) :: (((x1, y1) :: rest) as t) =>
    match rest with
    | [] => add y0 (mul (div (sub x x0) (sub x1 x0)) (sub y1 y0))
    | _ => if ltb x x1 then add y0 (mul (div (sub x x0) (sub x1 x0)) (sub y1 y0)) else linear_value t x
    end
  | _ => NaN
  end.
Definition gsl_linear : gsl := Gsl 2 ascending linear_value.

(** *** interp.c.  Arrays are lists, pointers into them the remaining lists; None = an error or a read beyond the end. *)
Definition read (l : list num) (i : nat) : option num := nth_error l i.
(* interp.c:43-50  the difference from which the order is determined; [i] runs from 0 *)
Fixpoint first_step (nxin : nat) (xin : list num) (fuel : nat) (i : nat) : option num :=
  match fuel with
  | O => None
  | S fuel =>
    bind (read xin (S i)) (fun b => bind (read xin i) (fun a =>
    let dx := sub b a in
    if is_fin dx then Some dx else if Nat.ltb (S i) nxin then first_step nxin xin fuel (S i) else Some dx))
  end.
(* interp.c:80-90 *)
Definition collect (omit_nm : bool) (pts : list (num * num)) : list (num * num) :=
  fold_left (fun acc '(x, y) =>
               if is_fin y && is_fin x then
                 if omit_nm && (0 <? zlen acc) && ltb x (fst (last acc (NaN, NaN))) then acc else acc ++ [(x, y)]
               else acc) pts [].
(* interp.c:92-130  one array; [pts] = local_xin, local_yin *)
Definition one_array (g : gsl) (d_below d_above : num) (pts : list (num * num)) (xout : list num) : option (list num) :=
  if zlen pts <? min_size g then Some (map (fun _ => NaN) xout)
  else if gsl_init g pts then
    let xmin := fst (hd (NaN, NaN) pts) in
    let xmax := fst (last pts (NaN, NaN)) in
    let ymin := gsl_eval g pts xmin in
    let ymax := gsl_eval g pts xmax in
    Some (map (fun x => if ltb x xmin then add ymin (mul d_below (sub x xmin))
                        else if ltb xmax x then add ymax (mul d_above (sub x xmax))
                        else gsl_eval g pts x) xout)
  else None.
(* the next n elements at a pointer *)
Definition block (n : nat) (l : list num) : option (list num) := if Nat.leb n (length l) then Some (firstn n l) else None.
(* interp.c:78-138  the loop over the arrays *)
Fixpoint arrays (g : gsl) (d_below d_above : num) (omit_nm loop_xin loop_xout back : bool) (narrays nxin nxout : nat) (xin yin xout : list num) : option (list num) :=
  match narrays with
  | O => Some []
  | S k =>
    bind (block nxin xin) (fun xs => bind (block nxin yin) (fun ys => bind (block nxout xout) (fun ts =>
    let pts := combine xs ys in
    bind (one_array g d_below d_above (collect omit_nm (if back then rev pts else pts)) ts) (fun r =>
    bind (arrays g d_below d_above omit_nm loop_xin loop_xout back k nxin nxout
            (if loop_xin then skipn nxin xin else xin) (skipn nxin yin) (if loop_xout then skipn nxout xout else xout)) (fun rs =>
    Some (r ++ rs))))))
  end.
(* interp.c:31-157 *)
Definition interpgsl (g : gsl) (narrays nxin nxout : nat) (xin yin xout : list num) (loop_xin loop_xout : bool) (d_below d_above : num) (omit_nm : bool) : option (list num) :=
  bind (if Nat.ltb 1 nxin then first_step nxin xin nxin 0 else Some (Fin 1%Qc)) (fun dx =>
  if is_fin dx && (ltb dx zero || ltb zero dx)
  then arrays g d_below d_above omit_nm loop_xin loop_xout (ltb dx zero) narrays nxin nxout xin yin xout
  else None).

(** *** interp.py *)
(* np.repeat along every axis of length 1 (interp.py:120-122, 130-132): to the shape [s] *)
Definition repeat_ones {V} (a : arr V) (s : list Z) : arr V :=
  Arr (map (fun '(m, n) => if m =? 1 then n else m) (combine (shape a) s))
      (fun p => val a (map (fun '(m, k) => if m =? 1 then 0 else k) (combine (shape a) p))).

Section Interp.
Context (env : axenv) (junk : list Z -> num).
Notation var := (ViewModel.var axis num).
Notation ops := (axis_ops env).

(* interp.py:96-164  getview; [inv] = self.invar, its last axis is interpolated *)
Definition interp_view (g : gsl) (inv inx outx : var) (d_below d_above : num) (omit_nm : bool) (v : view axis) : option (arr num) :=
  let l := (length (vaxes v) - 1)%nat in
  bind (nth_error (var_axes inv) l) (fun a =>
  bind (replace_axis env v l a whole) (fun inview =>
  bind (ViewModel.get ops junk inview inv true true) (fun indata =>
  bind (ViewModel.get ops junk inview inx true true) (fun inx_data =>
  let loop_inx := negb (Nat.eqb (length (var_axes inx)) 1) in
  let inx_data := if loop_inx then repeat_ones inx_data (shape indata) else inx_data in
  bind (ViewModel.get ops junk v outx true true) (fun outx_data =>
  let loop_outx := negb (Nat.eqb (length (var_axes outx)) 1) in
  let outx_data := if loop_outx then repeat_ones outx_data (vshape v) else outx_data in
  let narrays := prod (shape indata) / nth l (shape indata) 0 in
  bind (interpgsl g (Z.to_nat narrays) (Z.to_nat (nth l (shape inx_data) 0)) (Z.to_nat (nth l (shape outx_data) 0))
          (entries inx_data) (entries indata) (entries outx_data) loop_inx loop_outx d_below d_above omit_nm) (fun flat =>
  Some (Arr (vshape v) (fun p => nth (Z.to_nat (ravel (vshape v) p)) flat NaN)))))))).

(* interp.py:37-95  the constructor; inx, outx = None stand for the axes *)
Definition interp_var (g : gsl) (x : var) (d : nat) (outaxis : axis) (inx outx : option var) (d_below d_above : num) (omit_nm : bool) : option var :=
  bind (nth_error (var_axes x) d) (fun a =>
  let n := length (var_axes x) in
  bind (transpose_var env junk x (seq 0 d ++ seq (S d) (n - S d) ++ [d])) (fun inv =>
  let inx := match inx with Some i => i | None => axis_var a end in
  let outx := match outx with Some o => o | None => axis_var outaxis end in
  Some (Var (set_at (var_axes inv) (n - 1) outaxis) (GetView (interp_view g inv inx outx d_below d_above omit_nm))))).

(* interp.py:169-266  interpolate: the axes are put back into their order if [transpose] is False (interp.py:262) *)
Definition interpolate (g : gsl) (x : var) (d : nat) (outaxis : axis) (inx outx : option var) (d_below d_above : num) (transpose omit_nm : bool) : option var :=
  bind (interp_var g x d outaxis inx outx d_below d_above omit_nm) (fun out =>
  if transpose then Some out else let n := length (var_axes x) in transpose_var env junk out (seq 0 d ++ [(n - 1)%nat] ++ seq d (n - 1 - d))).
End Interp.
