(** Model of /repo/pygeode/smooth.py.  Axis arguments are positions (whichaxis is applied already); the kernel is given as a list
    (a number stands for np.hanning(number), which is not modelled); dtypes, meta-data and progress bars are left out. *)
From Coq Require Import ZArith List Bool.
From Verif Require Import IndexModel IndexSpec ArrModel ViewModel AxisModel VarOpsModel ReduceModel NumModel StencilModel WindowModel.
Import ListNotations.
Open Scope Z_scope.

(** *** numpy and scipy *)
(* a[..., sl, ...] with an index for axis d only *)
Definition get_along {V} (a : arr V) (d : nat) (sl : sel) : option (arr V) := option_map (take_axis a d) (np_index sl (nth d (shape a) 0)).
(* a[..., sl, ...] = b *)
Definition set_along {V} (a : arr V) (d : nat) (sl : sel) (b : arr V) : option (arr V) :=
  bind (np_index sl (nth d (shape a) 0)) (fun l =>
  bind (broadcast b (set_at (shape a) d (zlen l))) (fun b =>
  Some (Arr (shape a) (fun p => match last_index l (nth d p 0) 0 with Some k => val b (set_at p d k) | None => val a p end)))).
Definition is_fin (x : num) : bool := match x with Fin _ => true | _ => false end.
Definition entries {V} (a : arr V) : list V := map (val a) (product (map (fun n => arange 0 n 1) (shape a))).
(* scipy.signal.convolve(src, kernel, 'same') and fftconvolve, with the kernel along axis d (it has length 1 along the others):
   the middle of the full convolution.  [direct]: whether scipy sums the products itself.  Otherwise it goes through
   Fourier transforms, which is the same thing if all numbers are finite; if not nothing is said about the result. *)
Definition convolve_same (direct : bool) (junk : list Z -> num) (src : arr num) (d : nat) (kernel : list num) : arr num :=
  let M := nth d (shape src) 0 in
  let first := (zlen kernel - 1) / 2 in
  let term p (jk : Z * num) := let r := nth d p 0 + first - fst jk in if (0 <=? r) && (r <? M) then mul (snd jk) (val src (set_at p d r)) else zero in
  if direct || (forallb is_fin kernel && forallb is_fin (entries src))
  then Arr (shape src) (fun p => np_sum (map (term p) (combine (arange 0 (zlen kernel) 1) kernel)))
  else Arr (shape src) junk.

Section Smooth.
Context (env : axenv) (junk : list Z -> num) (MAX_ARRAY_SIZE : Z) (direct : bool).
Notation var := (ViewModel.var axis num).

(* smooth.py:76-96  the loop body: the block [indata] is extended to the length [M] by [ml] mirrored elements on the left and [mr] on the
   right, convolved, and the elements [at] of the result are taken *)
Definition smooth_block (d : nat) (kernel : list num) (M ml mr : Z) (at_ : list Z) (indata : arr num) : option (arr num) :=
  let src := Arr (set_at (shape indata) d M) (fun _ => zero) in
  bind (set_along src d (SSlice (Slice (Some ml) (Some (M - mr)) None)) indata) (fun src =>
  bind (if 0 <? ml then
          bind (get_along src d (SSlice (Slice (Some (2 * ml - 1)) (Some (ml - 1)) (Some (-1))))) (fun b => set_along src d (SSlice (Slice (Some 0) (Some ml) None)) b)
        else Some src) (fun src =>
  bind (if 0 <? mr then
          bind (get_along src d (SSlice (Slice (Some (- mr - 1)) (Some (- (2 * mr) - 1)) (Some (-1))))) (fun b => set_along src d (SSlice (Slice (Some (- mr)) None None)) b)
        else Some src) (fun src =>
  get_along (convolve_same direct junk src d kernel) d (SList at_)))).

(* smooth.py:45-99  getview; N = self.shape[saxis] *)
Definition smooth_view (x : var) (d : nat) (N : Z) (kernel : list num) (v : view axis) : option (arr num) :=
  let ind := nth d (vinds v) [] in
  bind (zmin ind) (fun st => bind (zmax ind) (fun sp =>
  let klen := zlen kernel in
  let loffs := klen / 2 in
  let roffs := klen - loffs in
  let ml := Z.max (loffs - st) 0 in
  let mr := Z.max (sp + roffs) N - N in
  bind (modify_slice env v d (SSlice (Slice (Some (Z.max (st - loffs) 0)) (Some (Z.min (sp + roffs) N)) (Some 1)))) (fun aview =>
  bind (loopover env junk MAX_ARRAY_SIZE [x] (var_axes x) aview [d]) (fun items =>
  fold_left (fun out '(outsl, data) =>
               bind out (fun out =>
               match data with
               | [indata] => bind (smooth_block d kernel (sp - st + klen) ml mr (map (fun i => i - (st - loffs)) ind) indata) (fun b => setitem out outsl b)
               | _ => None
               end)) items (Some (Arr (vshape v) (fun _ => zero))))))).

(* smooth.py:11-43  the constructor; None = the kernel is longer than the axis *)
Definition smooth_var (x : var) (d : nat) (kernel : list num) : option var :=
  bind (nth_error (var_axes x) d) (fun a =>
  if axis_len a <? zlen kernel then None
  else Some (Var (var_axes x) (GetView (smooth_view x d (axis_len a) (map (fun k => div k (np_sum kernel)) kernel))))).

(* smooth.py:141-151 *)
Definition smooth (x : var) (d : nat) (kernel : list num) : option var := if zlen kernel <=? 2 then Some x else smooth_var x d kernel.
End Smooth.
