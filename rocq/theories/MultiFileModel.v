(** Model of variables whose times are spread over many files: /repo/pygeode/formats/multifile.py (Multifile_Var.getview; the time axis
    that open_multi makes up is in MultiTimeModel.v).  A file is represented by the variable in it; progress bars, error messages, dtypes (integer data, for which
    out[()] = nan fails, are not considered) and the squeezing of an axis called 'time' that is not a time axis are left out. *)
From Coq Require Import ZArith List Bool QArith_base Qcanon.
From Verif Require Import CalModel TimeSearchModel IndexModel IndexSpec ArrModel ViewModel AxisModel VarOpsModel NumModel ReduceModel StencilModel SmoothModel ClimModel ConcatModel.
Import ListNotations.
Open Scope Z_scope.

(** l[i] in Python: negative indices count from the end *)
Definition wrapped (n i : Z) : Z := if i <? 0 then i + n else i.
Definition py_nth {A} (l : list A) (i : Z) : option A := TimeSearchModel.znth l (wrapped (zlen l) i).

(* timeutils.py:86-92 reltime *)
Definition reltime (t : taxis) (start : pdate) (u : CalModel.unit) : option (list Q) :=
  sequence (map (fun d => date_as_val (t_cal t) start u (mask_date (t_mask t) d)) (t_dates t)).

(* multifile.py:350  np.searchsorted(self.faxis.values, x, side='right') - 1, for values that are sorted *)
Definition file_index (faxis : taxis) (x : Q) : Z := zlen (filter (fun y => Qle_bool y x) (t_vals faxis)) - 1.

(* multifile.py:352-356  where a new file needs to be loaded; an index outside of the array fails later on *)
Definition newfile_pos (ind : list Z) : list Z :=
  0 :: filter (fun p => negb (ArrModel.znth ind (p - 1) =? ArrModel.znth ind p)) (arange 1 (zlen ind) 1).

Section Multi.
Context (env : axenv) (lexsort : list (list Z) -> list Z) (junk : list Z -> num).
Notation ops := (axis_ops env).
Notation var := (ViewModel.var axis num).
Notation get := (ViewModel.get ops junk).

(** None in the list: the file cannot be opened, or the variable is not there *)
Context (files : list (option var)) (faxis : taxis).

(* multifile.py:369-377  the times of one file *)
Definition timechunk (x : var) (k : Z) : option taxis :=
  match time_index (var_axes x) with
  | Some (_, c) => Some c
  | None => let n := zlen (t_dates faxis) in let i := wrapped n k in
            if (0 <=? i) && (i <? n) then match axis_take env (Time faxis) [i] with Time c => Some c | _ => None end else None
  end.

(* multifile.py:359-396  one round of the loop *)
Definition multi_step (v : view axis) (ti : nat) (times : taxis) (k : Z) (out : arr num) (handled : list bool) : option (arr num * list bool) :=
  bind (py_nth files k) (fun file => bind file (fun x =>
  bind (timechunk x k) (fun chunk =>
  bind (common_map lexsort times chunk) (fun m =>
  let bigmap := map fst m in
  if zlen bigmap =? 0 then None else
  bind (replace_axis env v ti (Time times) (SList bigmap)) (fun newview =>
  bind (get newview x true true) (fun data =>
  bind (set_along out ti (SList bigmap) data) (fun out =>
  Some (out, fold_left (fun h i => set_at h (Z.to_nat i) true) bigmap handled)))))))).

(* multifile.py:330-415  getview *)
Definition multi_view (v : view axis) : option (arr num) :=
  bind (time_index (vaxes v)) (fun '(ti, _) =>
  bind (subaxis env v ti) (fun a =>
  match a with
  | Time times =>
    bind (reltime times (t_start faxis) (t_units faxis)) (fun x =>
    let file_indices := map (file_index faxis) x in
    bind (fold_left (fun s p => bind s (fun '(out, handled) => bind (TimeSearchModel.znth file_indices p) (fun k => multi_step v ti times k out handled)))
            (newfile_pos file_indices) (Some (Arr (vshape v) (fun _ => NaN), repeat false (length (t_dates times))))) (fun '(out, handled) =>
    if forallb (fun h => h) handled then Some out else None))
  | _ => None
  end)).

(* multifile.py:303-325  Multifile_Var.__init__: [v1] = the axes of the variable in the first file, [t] = the time axis that is made up *)
Definition multi_var (v1 : list axis) (t : taxis) : var :=
  Var (match time_index v1 with Some (ti, _) => set_at v1 ti (Time t) | None => Time t :: v1 end) (GetView multi_view).
End Multi.
