(** Model of splitting a time axis into years and the rest, and of joining the two: /repo/pygeode/timeutils.py:351-560.
    Names of axes other than the new one, meta-data, dtypes (integer data, for which out[()] = NaN fails, are not considered) and progress bars are left out;
    lists of slices are used as indices as if they were tuples. *)
From Coq Require Import ZArith List Bool QArith_base Qround.
From Verif Require Import CalModel TimeSearchModel IndexModel IndexSpec ArrModel ViewModel AxisModel VarOpsModel NumModel ReduceModel StencilModel SmoothModel ClimModel ConcatModel WindowModel.
Import ListNotations.
Open Scope Z_scope.

Definition without_year (k : mask) : mask := mkmask false (mm k) (md k) (mh k) (mmi k) (ms k).
Definition with_years (k : mask) : mask := mkmask true (mm k) (md k) (mh k) (mmi k) (ms k).
Definition in_year (y : Z) (d : date) : date := mkdate y (month d) (day d) (hour d) (minute d) (second d).

(* timeutils.py:376-405  the combinations; the start date is not given, hence the first of them (timeaxis.py:96-99), and there must be one *)
Definition jointime (years : list Q) (days : taxis) : option taxis :=
  let dates := List.concat (map (fun y => map (in_year (Qfloor y)) (t_dates days)) years) in
  let k := with_years (t_mask days) in
  bind (hd_error dates) (fun d0 =>
  let start := mask_date k d0 in
  bind (sequence (map (axis_value (t_cal days) start (t_units days) k) dates)) (fun vals =>
  Some (MkTime (t_class days) (t_cal days) start (t_units days) k dates vals))).

Section Split.
Context (env : axenv) (lexsort : list (list Z) -> list Z) (junk : list Z -> num).
Notation ops := (axis_ops env).
Notation var := (ViewModel.var axis num).
Notation get := (ViewModel.get ops junk).
(** the class NamedAxis and the name "year" *)
Context (named : list Z) (year_name : Z).

(* timeutils.py:363-365  NamedAxis(np.unique(taxis.year), 'year') *)
Definition year_axis (l : list Z) : axis := Coord (MkCoord Named named year_name (map inject_Z l) [] [] (new_rtol env (map inject_Z l))).
(* timeutils.py:353-372  _splittime *)
Definition splittime (t : taxis) : option (axis * taxis) :=
  if my (t_mask t) then
    bind (modify lexsort t (without_year (t_mask t))) (fun days => Some (year_axis (np_unique (map year (t_dates t))), days))
  else None.

(* timeutils.py:435-473  SplitTime.getview *)
Definition split_view (x : var) (ti : nat) (v : view axis) : option (arr num) :=
  bind (subaxis env v ti) (fun years => bind (subaxis env v (S ti)) (fun days =>
  bind (nth_error (var_axes x) ti) (fun a =>
  match days, a with
  | Time days, Time t =>
    bind (jointime (axis_vals years) days) (fun out_times =>
    bind (common_map lexsort t out_times) (fun m =>
    bind (replace_axis env (remove_axis v (S ti)) ti (Time t) (SList (map fst m))) (fun inview =>
    bind (get inview x true true) (fun indata =>
    let s := vshape v in
    bind (reshape (Arr s (fun _ => NaN)) (firstn ti s ++ (nth ti s 0 * nth (S ti) s 0) :: skipn (S (S ti)) s)) (fun out =>
    bind (set_along out ti (SList (map snd m)) indata) (fun out => reshape out s))))))
  | _, _ => None
  end))).
(* timeutils.py:413-433  SplitTime.__init__ *)
Definition split_var (x : var) (ti : nat) : option var :=
  bind (nth_error (var_axes x) ti) (fun a =>
  match a with
  | Time t => bind (splittime t) (fun '(years, days) =>
      Some (Var (firstn ti (var_axes x) ++ years :: Time days :: skipn (S ti) (var_axes x)) (GetView (split_view x ti))))
  | _ => None
  end).

(* np.rollaxis(a, axis, start) with start <= axis: the axes in the new order *)
Definition rolled (n axis start : nat) : list nat := seq 0 start ++ [axis] ++ seq start (axis - start) ++ seq (S axis) (n - S axis).
(* a.reshape(s1 + [-1] + s2) *)
Definition reshape_rest (a : arr num) (s1 s2 : list Z) : option (arr num) :=
  let n := prod s1 * prod s2 in
  if n =? 0 then None else reshape a (s1 ++ prod (shape a) / n :: s2).
(* timeutils.py:515-553  JoinTime.getview *)
Definition join_view (x : var) (yi di : nat) (v : view axis) : option (arr num) :=
  bind (subaxis env v yi) (fun a =>
  match a with
  | Time times =>
    bind (splittime times) (fun '(years, days) =>
    bind (replace_axis env v yi years whole) (fun v1 => bind (add_axis env v1 di (Time days) whole) (fun inview =>
    bind (get inview x true true) (fun data =>
    bind (transpose data (rolled (length (shape data)) di (S yi))) (fun data =>
    bind (reshape_rest data (firstn yi (shape data)) (skipn (S di) (shape data))) (fun data =>
    bind (jointime (axis_vals years) days) (fun uber =>
    bind (axis_map_to env (Time uber) (Time times)) (fun ind =>
    get_along data yi (SList ind)))))))))
  | _ => None
  end).
(* timeutils.py:489-513  JoinTime.__init__ *)
Definition join_var (x : var) (yi di : nat) : option var :=
  if Nat.ltb yi di then
    bind (nth_error (var_axes x) yi) (fun years => bind (nth_error (var_axes x) di) (fun a =>
    match a with
    | Time days => bind (jointime (axis_vals years) days) (fun t =>
        Some (Var (set_at (remove_at (var_axes x) di) yi (Time t)) (GetView (join_view x yi di))))
    | _ => None
    end))
  else None.
End Split.
