(** Model of the climatologies: /repo/pygeode/climat.py, the routines of tools.c and tools.py it uses, and
    timeutils.modify.  Several accumulators filled in one loop are modelled as one loop for each; names, meta-data, dtypes and
    progress bars are left out (integer data, for which sum /= count fails, are not considered).  The seasonal classes are not included. *)
From Coq Require Import ZArith List Bool QArith_base Qcanon.
From Verif Require Import CalModel TimeSearchModel IndexModel IndexSpec ArrModel ViewModel AxisModel VarOpsModel NumModel ReduceModel StencilModel SmoothModel.
Import ListNotations.
Open Scope Z_scope.

Notation zlen := IndexSpec.zlen.

(** *** tools.c.  Arrays are lists; None = an access outside of an array. *)
Definition peek {A} (l : list A) (i : Z) : option A := TimeSearchModel.znth l i.
(* l[i] = f(l[i]) *)
Definition bump {A} (l : list A) (i : Z) (f : A -> A) : option (list A) :=
  bind (peek l i) (fun x => Some (set_at l (Z.to_nat i) (f x))).
(* for (int i = 0; i < n; i++) *)
Definition for_ {S} (n : Z) (body : Z -> S -> option S) (s : S) : option S :=
  fold_left (fun s i => bind s (body i)) (arange 0 n 1) (Some s).
(* tools.c:217-236 PARTIAL_SUM (skip = nothing) and 238-260 PARTIAL_NAN_SUM (skip = isnan) *)
Definition c_partial_sum (skip : num -> bool) (nx nin nout ny : Z) (inp out : list num) (count : list Z) (outmap : list Z) : option (list num * list Z) :=
  for_ nx (fun x => for_ nin (fun i s =>
    bind (peek outmap i) (fun o => for_ ny (fun y '(out, count) =>
      bind (peek inp (x * nin * ny + i * ny + y)) (fun e =>
      if skip e then Some (out, count) else
      bind (bump out (x * nout * ny + o * ny + y) (fun v => add v e)) (fun out =>
      bind (bump count (x * nout * ny + o * ny + y) (fun v => v + 1)) (fun count =>
      Some (out, count))))) s))) (out, count).

(** *** tools.py:460-528  partial_sum, partial_nan_sum up to the last two lines; [nout] = bigout.shape[iaxis].
   An empty outmap fails (min of nothing). *)
Definition partial_sum (skip : num -> bool) (a : arr num) (nout : Z) (iaxis : nat) (outmap : list Z) : option (arr num * arr Z) :=
  let s := set_at (shape a) iaxis nout in
  let nin := nth iaxis (shape a) 0 in
  match outmap with [] => None | _ =>
  if (zlen outmap =? nin) && forallb (fun o => (0 <=? o) && (o <? nout)) outmap then
    bind (c_partial_sum skip (prod (firstn iaxis (shape a))) nin nout (prod (skipn (S iaxis) (shape a))) (entries a)
            (repeat zero (Z.to_nat (prod s))) (repeat 0 (Z.to_nat (prod s))) outmap) (fun '(out, count) =>
    Some (Arr s (fun p => nth (Z.to_nat (ravel s p)) out NaN), Arr s (fun p => nth (Z.to_nat (ravel s p)) count 0)))
  else None
  end.

(** *** time axes with fewer fields *)
(** the fields of a date that are not given: year 0, month 1, day 1, hour 0, ... (these are never looked at) *)
Definition next (here : bool) (d : Z) (r : list Z) : Z * list Z :=
  if here then (hd d r, tl r) else (d, r).
Definition date_of (k : mask) (r : list Z) : date :=
  let '(y, r) := next (my k) 0 r in let '(m, r) := next (mm k) 1 r in let '(d, r) := next (md k) 1 r in
  let '(h, r) := next (mh k) 0 r in let '(mi, r) := next (mmi k) 0 r in let '(s, _) := next (ms k) 0 r in
  mkdate y m d h mi s.
(* timeaxis.py:375-382  the start date of an axis that is given by fields: only those fields *)
Definition start_of (c : cal) (k : mask) (p : pdate) : pdate :=
  let f (b : bool) (o : option Z) (v : Z) := if b then Some (dflt o v) else None in
  mkpdate (match c with Yearless => None | _ => f (my k) (pyear p) 1 end)
          (f (mm k) (pmonth p) 1) (f (md k) (pday p) 1) (f (mh k) (phour p) 0) (f (mmi k) (pminute p) 0) (f (ms k) (psecond p) 0).
Definition no_field (k : mask) : bool := negb (my k || mm k || md k || mh k || mmi k || ms k).

Section Clim.
Context (env : axenv) (lexsort : list (list Z) -> list Z) (junk : list Z -> num) (MAX_ARRAY_SIZE : Z).
Notation ops := (axis_ops env).
Notation var := (ViewModel.var axis num).
Notation get := (ViewModel.get ops junk).

(* timeutils.py:31-79  modify(..., uniquify=True), [k] = the fields that remain; [lexsort] = _argsort (timeaxis.py:24-34), for records *)
Definition modify (t : taxis) (k : mask) : option taxis :=
  if no_field k then None else     (* 'no fields provided' *)
  bind (py_uniquify (lexsort (records k t)) (records k t)) (fun rows =>
  let dates := map (date_of k) rows in
  let start := start_of (t_cal t) k (t_start t) in
  bind (sequence (map (axis_value (t_cal t) start (t_units t) k) dates)) (fun vals =>
  Some (MkTime (t_class t) (t_cal t) start (t_units t) k dates vals))).

(* climat.py:75-118  which fields remain *)
Inductive grouping := Clim | Diurnal | Daily | Monthly | Yearly.
Definition remaining (g : grouping) (k : mask) : mask :=
  match g with
  | Clim => mkmask false (mm k) (md k) (mh k) (mmi k) (ms k)
  | Diurnal => mkmask false false false (mh k) (mmi k) (ms k)
  | Daily => mkmask (my k) (mm k) (md k) false false false
  | Monthly => mkmask (my k) (mm k) false false false false
  | Yearly => mkmask (my k) false false false false false
  end.
(* assert hasattr(outtime, ...) *)
Definition needed (g : grouping) (k : mask) : bool :=
  match g with Clim | Diurnal => true | Daily => md k | Monthly => mm k | Yearly => my k end.
Definition get_outtime (g : grouping) (t : taxis) : option taxis :=
  if needed g (t_mask t) then modify t (remaining g (t_mask t)) else None.

(* timeaxis.py:234-288  Time.common_map with common_fields *)
Definition mask_and (j k : mask) : mask :=
  mkmask (my j && my k) (mm j && mm k) (md j && md k) (mh j && mh k) (mmi j && mmi k) (ms j && ms k).
Definition common_map (a b : taxis) : option (list (Z * Z)) :=
  let k := mask_and (t_mask a) (t_mask b) in
  if negb (class_eqb (t_class a) (t_class b)) || no_field k then None
  else time_common_map (lexsort (records k a)) (lexsort (records k b)) (records k a) (records k b).

(* view.py:383-403 View.index, var.py whichaxis/getaxis for the class Time (or CalendarTime) *)
Definition time_index (axes : list axis) : option (nat * taxis) :=
  find_first (fun a => match a with Time t => Some t | _ => None end) axes.

(* climat.py:19-60  loopover: the list of (slices, data, bins) *)
Definition loopover (vars : list var) (v : view axis) : option (list (list sel * list (arr num) * list Z)) :=
  bind (clip env v) (fun view =>
  bind (time_index (vaxes view)) (fun '(ti, ct) =>
  bind (hd_error vars) (fun x => bind (time_index (var_axes x)) (fun '(_, t) =>
  bind (common_map t ct) (fun m =>
  if np_all_eq (np_unique (map snd m)) (np_unique (nth ti (vinds view) [])) then
    bind (replace_axis env view ti (Time t) (SList (map fst m))) (fun inview =>
    bind (replace_axis env view ti (Time ct) (SList (map snd m))) (fun climview =>
    sequence (map (fun '(c, d) =>
        bind (sequence (map (fun x => get (view_of_inds (vaxes inview) c) x true true) vars)) (fun data =>
        Some (set_at (vslices (view_of_inds (vaxes climview) d)) ti whole, data, nth ti d [])))
      (combine (loop_mem MAX_ARRAY_SIZE (vinds inview) []) (loop_mem MAX_ARRAY_SIZE (vinds climview) [])))))
  else None))))).

(** the loops of the getview methods: big = np.zeros(view.shape); for slices, data, bins in loopover(...): big[slices] += block *)
Definition accumulate {W} (vars : list var) (v : view axis) (zero : W) (plus : W -> W -> W)
  (block : list (arr num) -> list Z -> option (arr W)) : option (arr W) :=
  bind (loopover vars v) (fun items =>
  fold_left (fun big '(sl, data, bins) => bind big (fun big => bind (block data bins) (fun b => update plus big sl b)))
            items (Some (Arr (vshape v) (fun _ => zero)))).
Definition sums (skip : num -> bool) (f : list (arr num) -> option (arr num)) (vars : list var) (ti : nat) (v : view axis) : option (arr num) :=
  accumulate vars v zero add (fun data bins =>
    bind (f data) (fun a => option_map fst (partial_sum skip a (nth ti (vshape v) 0) ti bins))).
Definition counts (skip : num -> bool) (f : list (arr num) -> option (arr num)) (vars : list var) (ti : nat) (v : view axis) : option (arr Z) :=
  accumulate vars v 0 Z.add (fun data bins =>
    bind (f data) (fun a => option_map snd (partial_sum skip a (nth ti (vshape v) 0) ti bins))).
Definition the_data (data : list (arr num)) : option (arr num) := hd_error data.
Definition squared (data : list (arr num)) : option (arr num) := option_map (op1 (fun x => mul x x)) (hd_error data).
Definition never (x : num) : bool := false.

(* climat.py:186-203 Mean *)
Definition mean_view (x : var) (ti : nat) (v : view axis) : option (arr num) :=
  bind (sums never the_data [x] ti v) (fun s => bind (counts never the_data [x] ti v) (fun n => zip_to (fun s n => div s (num_of_Z n)) s n)).
(* climat.py:205-228 NANMean *)
Definition nan_count (n : Z) : num := if n =? 0 then NaN else num_of_Z n.
Definition nanmean_view (x : var) (ti : nat) (v : view axis) : option (arr num) :=
  bind (sums is_nan the_data [x] ti v) (fun s => bind (counts is_nan the_data [x] ti v) (fun n => zip_to (fun s n => div s (nan_count n)) s n)).
(* climat.py:230-254 Stdev: the second count is not used *)
Definition spread (xx x n : num) : num := let x := div x n in div (sub xx (mul n (mul x x))) (sub n (num_of_Z 1)).
Definition stdev_view (sqrt : num -> num) (x : var) (ti : nat) (v : view axis) : option (arr num) :=
  bind (sums never squared [x] ti v) (fun xx => bind (sums never the_data [x] ti v) (fun s => bind (counts never the_data [x] ti v) (fun n =>
  bind (zip_to (fun s n => (s, num_of_Z n)) s n) (fun sn => zip_to (fun xx '(x, n) => sqrt (spread xx x n)) xx sn)))).
(* climat.py:256-285 NANStdev *)
Definition nanstdev_view (sqrt : num -> num) (x : var) (ti : nat) (v : view axis) : option (arr num) :=
  bind (sums is_nan squared [x] ti v) (fun xx => bind (sums is_nan the_data [x] ti v) (fun s => bind (counts is_nan the_data [x] ti v) (fun n =>
  bind (zip_to (fun s n => (s, nan_count n)) s n) (fun sn => zip_to (fun xx '(x, n) => sqrt (spread xx x n)) xx sn)))).
(* climat.py:287-304 Count *)
Definition count_view (x : var) (ti : nat) (v : view axis) : option (arr num) :=
  option_map (map_arr num_of_Z) (counts is_nan the_data [x] ti v).

(* climat.py:159-183  TimeOp.__init__ *)
Definition time_op (g : grouping) (getview : var -> nat -> view axis -> option (arr num)) (x : var) : option var :=
  bind (time_index (var_axes x)) (fun '(ti, t) => bind (get_outtime g t) (fun u =>
  Some (Var (set_at (var_axes x) ti (Time u)) (GetView (getview x ti))))).

(* climat.py:306-371 Trend.  Var([taxis], values=secs) *)
Definition seconds_var (t : taxis) : option var :=
  bind (sequence (map (fun d => date_as_val (t_cal t) (t_start t) Seconds (mask_date (t_mask t) d)) (t_dates t))) (fun s =>
  Some (Var [Time t] (Values (Arr [zlen (t_dates t)] (fun p => Fin (Q2Qc (nth (Z.to_nat (nth 0 p 0)) s 0%Q))))))).
Definition the_times (data : list (arr num)) : option (arr num) := nth_error data 1.
Definition times_squared (data : list (arr num)) : option (arr num) := option_map (op1 (fun x => mul x x)) (nth_error data 1).
Definition data_times (data : list (arr num)) : option (arr num) :=
  bind (nth_error data 0) (fun a => bind (nth_error data 1) (fun t => zip_to mul a t)).
(* x /= n, the sums over the counts *)
Definition means (f : list (arr num) -> option (arr num)) (vars : list var) (ti : nat) (v : view axis) : option (arr num) :=
  bind (sums never f vars ti v) (fun s => bind (counts never f vars ti v) (fun n => zip_to (fun s n => div s (num_of_Z n)) s n)).
Definition slope (X F XF X2 : num) : num := div (sub XF (mul X F)) (sub X2 (mul X X)).
Definition offset (X F XF X2 : num) : num := div (sub (mul X2 F) (mul X XF)) (sub X2 (mul X X)).
(* view.remove(Coef): the last axis *)
Definition without_last (v : view axis) : view axis := MkView (removelast (vaxes v)) (removelast (vslices v)) (removelast (vinds v)).
(* out[..., np.where(coef==0)[0]] = B[..., None], out[..., np.where(coef==1)[0]] = A[..., None]; other elements stay undefined *)
Definition trend_view (x : var) (ti : nat) (v : view axis) : option (arr num) :=
  bind (time_index (var_axes x)) (fun '(_, t) => bind (seconds_var t) (fun secs =>
  let cview := without_last v in
  let vars := [x; secs] in
  bind (means the_data vars ti cview) (fun F => bind (means the_times vars ti cview) (fun X =>
  bind (means data_times vars ti cview) (fun XF => bind (means times_squared vars ti cview) (fun X2 =>
  let coef := last (vinds v) [] in
  Some (Arr (vshape v) (fun p =>
    let q := removelast p in
    let c := ArrModel.znth coef (last p 0) in
    if c =? 0 then offset (val X q) (val F q) (val XF q) (val X2 q)
    else if c =? 1 then slope (val X q) (val F q) (val XF q) (val X2 q) else junk p)))))))).
Definition trend (coef : axis) (g : grouping) (x : var) : option var :=
  bind (time_index (var_axes x)) (fun '(ti, t) => bind (get_outtime g t) (fun u =>
  if 1 <? zlen (t_dates t) then Some (Var (set_at (var_axes x) ti (Time u) ++ [coef]) (GetView (trend_view x ti))) else None)).
End Clim.
