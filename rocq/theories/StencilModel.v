(** Model of differences, derivatives and integrals along one axis: /repo/pygeode/diff.py,
    /repo/pygeode/deriv.py, /repo/pygeode/intgr.py, and the view modifications they use
    (/repo/pygeode/view.py:346-372).  Axis identifiers are positions (whichaxis is applied already);
    names, dtypes, attributes and progress bars are left out. *)
From Coq Require Import ZArith List Bool QArith_base Qcanon.
From Verif Require Import IndexModel IndexSpec ArrModel ViewModel AxisModel VarOpsModel UfuncModel NumModel.
Import ListNotations.
Open Scope Z_scope.

(** *** numpy *)
(* np.union1d *)
Definition union1d (a b : list Z) : list Z := np_unique (a ++ b).
(* functools.reduce(np.union1d, l); TypeError if l is empty *)
Definition union_all (l : list (list Z)) : option (list Z) :=
  match l with [] => None | x :: t => Some (fold_left union1d t x) end.
(* a op b with broadcasting; both have the same number of dimensions *)
Definition op2 {V} (f : V -> V -> V) (a b : arr V) : option (arr V) :=
  match bcast_shape (shape a) (shape b) with
  | None => None
  | Some s =>
    match broadcast a s, broadcast b s with
    | Some a, Some b => Some (Arr s (fun p => f (val a p) (val b p)))
    | _, _ => None
    end
  end.
(* number op a *)
Definition op1 {V} (f : V -> V) (a : arr V) : arr V := Arr (shape a) (fun p => f (val a p)).
Definition bind {A B} (o : option A) (f : A -> option B) : option B := match o with Some a => f a | None => None end.
(* a[..., 1:, ...] and a[..., :-1, ...] *)
Definition from_second {V} (a : arr V) (d : nat) : arr V := take_axis a d (arange 1 (nth d (shape a) 0) 1).
Definition but_last {V} (a : arr V) (d : nat) : arr V := take_axis a d (arange 0 (nth d (shape a) 0 - 1) 1).
(* np.diff(a, n, axis=d) *)
Fixpoint np_diff {V} (minus : V -> V -> V) (n : nat) (a : arr V) (d : nat) : option (arr V) :=
  match n with
  | O => Some a
  | S n => bind (op2 minus (from_second a d) (but_last a d)) (fun b => np_diff minus n b d)
  end.
(* a[..., ::order, ...] for order = 1 or -1 *)
Definition ordered {V} (back : bool) (a : arr V) (d : nat) : arr V :=
  if back then take_axis a d (rev (arange 0 (nth d (shape a) 0) 1)) else a.
(* np.concatenate([a, b], d); only the lengths along d may differ *)
Definition concatenate {V} (a b : arr V) (d : nat) : option (arr V) :=
  if list_eq_dec Z.eq_dec (set_at (shape a) d 0) (set_at (shape b) d 0) then
    let m := nth d (shape a) 0 in
    Some (Arr (set_at (shape a) d (m + nth d (shape b) 0))
              (fun p => if nth d p 0 <? m then val a p else val b (set_at p d (nth d p 0 - m))))
  else None.
(* np.add.accumulate(a, d) *)
Fixpoint running {V} (plus : V -> V -> V) (f : Z -> V) (k : nat) : V :=
  match k with O => f 0 | S k' => plus (running plus f k') (f (Z.of_nat k)) end.
Definition accumulate {V} (plus : V -> V -> V) (a : arr V) (d : nat) : arr V :=
  Arr (shape a) (fun p => running plus (fun k => val a (set_at p d k)) (Z.to_nat (nth d p 0))).

(** *** views *)
Section View.
Context (env : axenv).
Notation ops := (axis_ops env).
(* view.py:356-361 *)
Definition modify_slice (v : view axis) (d : nat) (sl : sel) : option (view axis) :=
  view_of_slices ops (vaxes v) (set_at (vslices v) d sl).
(* view.py:346-354 *)
Definition replace_axis (v : view axis) (d : nat) (a : axis) (sl : sel) : option (view axis) :=
  view_of_slices ops (set_at (vaxes v) d a) (set_at (vslices v) d sl).
(* view.py:363-372, one axis *)
Definition unslice (v : view axis) (d : nat) : option (view axis) := modify_slice v d whole.

(** *** diff.py *)
Section Diff.
Context {V : Type} (junk : list Z -> V) (minus : V -> V -> V).
(* diff.py:41-73  getview *)
Definition diff_view (x : var axis V) (d : nat) (a : axis) (n : Z) (v : view axis) : option (arr V) :=
  let left := nth d (vinds v) [] in
  bind (union_all (map (fun i => map (fun l => l + i) left) (arange 0 (n + 1) 1))) (fun allpoints =>
  bind (replace_axis v d a (SList allpoints)) (fun allview =>
  bind (ViewModel.get ops junk allview x true true) (fun allvalues =>
  bind (np_diff minus (Z.to_nat n) allvalues d) (fun diff =>
  Some (take_axis diff d (map (searchsorted allpoints) left)))))).
(* diff.py:9-39  the constructor, df = 'right'; the slice [:-n] of the axis *)
Definition diff_var (x : var axis V) (d : nat) (n : Z) : option (var axis V) :=
  bind (nth_error (var_axes x) d) (fun a =>
  if axis_len a <=? n then None else
  bind (slice_index (SSlice (Slice None (Some (- n)) None)) (axis_len a)) (fun ind =>
  Some (Var (set_at (var_axes x) d (axis_take env a ind)) (GetView (diff_view x d a n))))).
End Diff.

(** *** deriv.py *)
Inductive stencil := Centre | Left | Right.
Section Deriv.
Context (junk : list Z -> num).
(* deriv.py:51-66  the end points used for the points [ind] *)
Definition ends (df : stencil) (Nd : Z) (ind : list Z) : list (Z * Z) :=
  let lr := map (fun i => match df with Centre => (i - 1, i + 1) | Left => (i - 1, i) | Right => (i, i + 1) end) ind in
  let lr := map (fun '(l, r) => (l, if l =? -1 then 1 else r)) lr in
  let lr := map (fun '(l, r) => (if l =? -1 then 0 else l, r)) lr in
  let lr := map (fun '(l, r) => (if r =? Nd then Nd - 2 else l, r)) lr in
  map (fun '(l, r) => (l, if r =? Nd then Nd - 1 else r)) lr.
(* deriv.py:42-98  getview *)
Definition deriv_view (x dx : var axis num) (d : nat) (Nd : Z) (df : stencil) (v : view axis) : option (arr num) :=
  let lr := ends df Nd (nth d (vinds v) []) in
  let left := map fst lr in
  let right := map snd lr in
  let allpoints := union1d left right in
  bind (modify_slice v d (SList allpoints)) (fun allview =>
  bind (ViewModel.get ops junk allview x true true) (fun allvalues =>
  bind (ViewModel.get ops junk allview dx true true) (fun allaxis =>
  let getleft := map (searchsorted allpoints) left in
  let getright := map (searchsorted allpoints) right in
  let L := take_axis allvalues d getleft in
  let R := take_axis allvalues d getright in
  let La := take_axis allaxis d getleft in
  let Ra := take_axis allaxis d getright in
  bind (op2 sub R L) (fun num =>
  bind (op2 sub Ra La) (fun den =>
  op2 div num den))))).
(** an axis, as the variable of its values *)
Definition axis_var (a : axis) : var axis num :=
  Var [a] (Values (Arr [axis_len a] (fun p => Fin (Q2Qc (nth (Z.to_nat (nth 0%nat p 0)) (axis_vals a) 0%Q))))).
(* deriv.py:8-40, 159-221  the constructor; dx = None means the axis.  The conversion of a one-dimensional dx
   with replace_axes is not included: it has to be given on the axis already. *)
Definition deriv_var (x : var axis num) (d : nat) (dx : option (var axis num)) (df : stencil) : option (var axis num) :=
  bind (nth_error (var_axes x) d) (fun a =>
  if axis_len a <=? 1 then None else
  let dx := match dx with Some dx => dx | None => axis_var a end in
  Some (Var (var_axes x) (GetView (deriv_view x dx d (axis_len a) df)))).

(* deriv.py:134-141 *)
Definition triple (Nd i : Z) : Z * Z * Z :=
  let left := i - 1 in
  let right := i + 1 in
  (if left =? -1 then 2 else left, i, if right =? Nd then Nd - 3 else right).
(* deriv.py:123-184  SecondDerivativeVar.getview *)
Definition deriv2_view (x dx : var axis num) (d : nat) (Nd : Z) (v : view axis) : option (arr num) :=
  let lcr := map (triple Nd) (nth d (vinds v) []) in
  let left := map (fun t => fst (fst t)) lcr in
  let centre := map (fun t => snd (fst t)) lcr in
  let right := map snd lcr in
  let allpoints := union1d left (union1d centre right) in
  bind (modify_slice v d (SList allpoints)) (fun allview =>
  bind (ViewModel.get ops junk allview x true true) (fun allvalues =>
  bind (ViewModel.get ops junk allview dx true true) (fun allaxis =>
  let getleft := map (searchsorted allpoints) left in
  let getcentre := map (searchsorted allpoints) centre in
  let getright := map (searchsorted allpoints) right in
  let L := take_axis allvalues d getleft in
  let C := take_axis allvalues d getcentre in
  let R := take_axis allvalues d getright in
  let La := take_axis allaxis d getleft in
  let Ca := take_axis allaxis d getcentre in
  let Ra := take_axis allaxis d getright in
  bind (op2 sub Ra Ca) (fun rc =>
  bind (op2 sub Ca La) (fun cl =>
  bind (op2 sub Ra La) (fun rl =>
  bind (op2 sub La Ra) (fun lr =>
  bind (op2 mul rc cl) (fun m =>
  bind (op2 mul m rl) (fun m =>
  let den := op1 (fun z => div (num_of_Z 2) z) m in
  bind (op2 mul rc den) (fun dL =>
  bind (op2 mul lr den) (fun dC =>
  bind (op2 mul cl den) (fun dR =>
  bind (op2 mul dL L) (fun tl =>
  bind (op2 mul dC C) (fun tc =>
  bind (op2 mul dR R) (fun tr =>
  bind (op2 add tl tc) (fun t =>
  op2 add t tr)))))))))))))))).
Definition deriv2_var (x : var axis num) (d : nat) (dx : option (var axis num)) : option (var axis num) :=
  bind (nth_error (var_axes x) d) (fun a =>
  if axis_len a <=? 1 then None else
  let dx := match dx with Some dx => dx | None => axis_var a end in
  Some (Var (var_axes x) (GetView (deriv2_view x dx d (axis_len a))))).
End Deriv.

(** *** intgr.py *)
Inductive rule := Trapz | Rectl | Rectr | Cumsum.
Section Integrate.
Context (junk : list Z -> num).
Definition half : num := Fin (Q2Qc (1 # 2)).
(* intgr.py:60-115  getview; v0 is a number or a variable.  order is 1 ([back] = false) or -1 *)
Definition integrate_view (x dx : var axis num) (v0 : arg num) (back : bool) (type : rule) (d : nat) (v : view axis) : option (arr num) :=
  bind (unslice v d) (fun inview =>
  bind (ViewModel.get ops junk inview x true true) (fun data =>
  let shp := set_at (vshape v) d 1 in
  bind (match v0 with
        | AVar v0 => bind (ViewModel.get ops junk v v0 true true) (fun d0 => broadcast d0 shp)
        | ANum c => Some (Arr shp (fun _ => c))
        end) (fun d0 =>
  bind (match type with
        | Cumsum => Some (from_second data d)
        | _ =>
          bind (bind (ViewModel.get ops junk inview dx true true) (fun r => np_diff sub 1 r d)) (fun dd =>
          match type with
          | Trapz => bind (op2 add (but_last data d) (from_second data d)) (fun s => op2 mul (op1 (mul half) dd) s)
          | Rectl => op2 mul dd (but_last data d)
          | _ => op2 mul dd (from_second data d)
          end)
        end) (fun terms =>
  bind (concatenate d0 (ordered back terms d) d) (fun dat =>
  let out := ordered back (accumulate add dat d) d in
  Some (take_axis out d (nth d (vinds v) []))))))).
(* intgr.py:11-58  the constructor; dx = None means the axis, v0 = None means 0 *)
Definition integrate_var (x : var axis num) (d : nat) (dx : option (var axis num)) (v0 : option (arg num)) (back : bool) (type : rule)
  : option (var axis num) :=
  bind (nth_error (var_axes x) d) (fun a =>
  if axis_len a <? 2 then None else
  let dx := match dx with Some dx => dx | None => axis_var a end in
  let v0 := match v0 with Some v0 => v0 | None => ANum zero end in
  Some (Var (var_axes x) (GetView (integrate_view x dx v0 back type d)))).
End Integrate.
End View.
