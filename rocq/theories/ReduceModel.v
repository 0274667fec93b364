(** Model of the reductions: /repo/pygeode/tools.py:357-450 (npsum ..., loopover),
    /repo/pygeode/view.py:184-197 (clip), /repo/pygeode/reduce.py.
    Several accumulators filled in one loop are modelled as one loop for each; progress bars are left out. *)
From Coq Require Import ZArith List Bool QArith_base Qcanon.
From Verif Require Import IndexModel IndexSpec ArrModel ViewModel AxisModel VarOpsModel NumModel.
Import ListNotations.
Open Scope Z_scope.

(** *** numpy *)

(** l with x inserted before position i; l without position i *)
Fixpoint insert_at {A} (l : list A) (i : nat) (x : A) {struct i} : list A :=
  match i, l with
  | O, _ => x :: l
  | S i, y :: t => y :: insert_at t i x
  | S _, [] => [x]
  end.
Fixpoint remove_at {A} (l : list A) (i : nat) : list A :=
  match l, i with
  | [], _ => []
  | _ :: t, O => t
  | y :: t, S i => y :: remove_at t i
  end.

(** an aggregation function applied along axis [i]: a.sum(i), np.amin(a, axis=i), ... *)
Definition reduce_axis {V W} (agg : list V -> W) (a : arr V) (i : nat) : arr W :=
  Arr (remove_at (shape a) i)
      (fun p => agg (map (fun k => val a (insert_at p i k)) (arange 0 (nth i (shape a) 0) 1))).

(** sorted(axes, reverse=True) *)
Fixpoint insert_desc (x : nat) (l : list nat) : list nat :=
  match l with
  | [] => [x]
  | y :: t => if Nat.leb y x then x :: l else y :: insert_desc x t
  end.
Definition sort_desc (l : list nat) : list nat := fold_right insert_desc [] l.

(* tools.py:357-405  npsum, npnansum, npmin, npnanmin, npmax, npnanmax (keep_degenerate=False) *)
Definition np_reduce {V} (agg : list V -> V) (a : arr V) (axes : list nat) : arr V :=
  fold_left (fun a i => reduce_axis agg a i) (sort_desc axes) a.

(** a[sls] for slices and at most one index list (numpy treats several index lists together,
    which is not modelled) *)
Definition is_list (s : sel) : bool := match s with SSlice _ => false | _ => true end.
Definition np_indices {V} (a : arr V) (sls : list sel) : option (list (list Z)) :=
  if Nat.eqb (length sls) (length (shape a)) && Nat.leb (length (filter is_list sls)) 1
  then sequence (map (fun '(s, n) => np_index s n) (combine sls (shape a))) else None.
Definition getitem {V} (a : arr V) (sls : list sel) : option (arr V) :=
  match np_indices a sls with Some inds => Some (outer_index a inds) | None => None end.

(** the last k with l[k] = x *)
Fixpoint last_index (l : list Z) (x : Z) (k : Z) : option Z :=
  match l with
  | [] => None
  | y :: t => match last_index t x (k + 1) with
              | Some i => Some i
              | None => if x =? y then Some k else None
              end
  end.
Fixpoint locate (inds : list (list Z)) (p : list Z) : option (list Z) :=
  match inds, p with
  | [], [] => Some []
  | l :: inds, x :: p => match last_index l x 0, locate inds p with Some k, Some r => Some (k :: r) | _, _ => None end
  | _, _ => None
  end.

(** a[sls] = b (b is broadcast; if an index is repeated the last one counts) *)
Definition setitem {V} (a : arr V) (sls : list sel) (b : arr V) : option (arr V) :=
  match np_indices a sls with
  | None => None
  | Some inds =>
    match broadcast b (map zlen inds) with
    | None => None
    | Some b => Some (Arr (shape a) (fun p => match locate inds p with Some k => val b k | None => val a p end))
    end
  end.

(** f(a, b) elementwise; b is broadcast to the shape of a *)
Definition zip_to {V W X} (f : V -> W -> X) (a : arr V) (b : arr W) : option (arr X) :=
  match broadcast b (shape a) with
  | Some b => Some (Arr (shape a) (fun p => f (val a p) (val b p)))
  | None => None
  end.
Definition map_arr {V W} (f : V -> W) (a : arr V) : arr W := Arr (shape a) (fun p => f (val a p)).

(** a[sls] = f(a[sls], b) *)
Definition update {V W} (f : V -> W -> V) (a : arr V) (sls : list sel) (b : arr W) : option (arr V) :=
  match getitem a sls with
  | None => None
  | Some cur => match zip_to f cur b with Some c => setitem a sls c | None => None end
  end.

(** *** pygeode *)
Section Reduce.
Context {V : Type} (env : axenv) (junk : list Z -> V) (MAX_ARRAY_SIZE : Z).
Notation ops := (axis_ops env).
Notation var := (ViewModel.var axis V).
Notation get := (ViewModel.get ops junk).

(* view.py:184-197  clip *)
Definition clip (v : view axis) : option (view axis) :=
  match subaxes ops v with Some axes => full_view env axes | None => None end.

(* tools.py:406-450  loopover: the list of (slices, data of each variable) *)
Definition loopover (vars : list var) (inaxes : list axis) (outview : view axis) (preserve : list nat)
  : option (list (list sel * list (arr V))) :=
  match clip outview with
  | None => None
  | Some outview =>
    match map_to ops outview inaxes false with
    | None => None
    | Some (inview, _) =>
      sequence (map (fun ind =>
          let inv := view_of_inds inaxes ind in
          match map_to ops inv (vaxes outview) true, sequence (map (fun x => get inv x true true) vars) with
          | Some (outv, _), Some data => Some (vslices outv, data)
          | _, _ => None
          end)
        (loop_mem MAX_ARRAY_SIZE (vinds inview) preserve))
    end
  end.

(** the loop of the getview methods:  out = np.full(view.shape, init);
    for outsl, data in loopover(...): out[outsl] = comb(out[outsl], block(data)) *)
Definition accumulate {W X} (vars : list var) (inaxes : list axis) (v : view axis)
  (init : W) (block : list (arr V) -> option (arr X)) (comb : W -> X -> W) : option (arr W) :=
  match loopover vars inaxes v [] with
  | None => None
  | Some chunks =>
    fold_left (fun out '(sl, data) =>
                 match out, block data with
                 | Some out, Some b => update comb out sl b
                 | _, _ => None
                 end) chunks (Some (Arr (vshape v) (fun _ => init)))
  end.

(* reduce.py:37-70  ReducedVar.__init__: [indices] = axis positions; None = a reduced axis is empty,
   or there is none ("no reduction axes specified") *)
Definition gone_axes (n : nat) (indices : list nat) : list bool := map (fun i => existsb (Nat.eqb i) indices) (seq 0 n).
Definition kept_axes {A} (axes : list A) (indices : list nat) : list A :=
  map snd (filter (fun '(i, _) => negb (existsb (Nat.eqb i) indices)) (combine (seq 0 (length axes)) axes)).
Definition count_reduced (axes : list axis) (indices : list nat) : Z :=
  prod (map (fun i => nth i (map axis_len axes) 0) indices).
Definition reduced_var {W} (x : var) (indices : list nat) (getview : view axis -> option (arr W)) : option (ViewModel.var axis W) :=
  match indices with
  | [] => None
  | _ => if existsb (fun i => nth i (map axis_len (var_axes x)) 0 =? 0) indices then None
         else Some (Var (kept_axes (var_axes x) indices) (GetView getview))
  end.

(* var.py:762-780  Var.load *)
Definition load {W} (x : ViewModel.var axis W) (junkw : list Z -> W) : option (ViewModel.var axis W) :=
  match var_source x with
  | Values _ => Some x
  | _ => match var_get env junkw x with Some a => Some (Var (var_axes x) (Values a)) | None => None end
  end.

(** the loop over one variable, block = agg(indata) *)
Definition accumulate1 {W X} (x : var) (v : view axis) (init : W) (block : arr V -> option (arr X)) (comb : W -> X -> W) : option (arr W) :=
  accumulate [x] (var_axes x) v init (fun data => match data with [a] => block a | _ => None end) comb.
End Reduce.

Section Kinds.
Context (env : axenv) (junk : list Z -> num) (MAX_ARRAY_SIZE : Z).
Notation ops := (axis_ops env).
Notation var := (ViewModel.var axis num).
Notation accumulate1 := (accumulate1 env junk MAX_ARRAY_SIZE).
Notation accumulate := (accumulate env junk MAX_ARRAY_SIZE).

(* reduce.py:13-35  ReducedVar.__new__: loaded at once if the input is in memory *)
Definition if_in_memory {W} (x : var) (y : ViewModel.var axis W) (junkw : list Z -> W) : option (ViewModel.var axis W) :=
  match var_source x with Values _ => load env y junkw | _ => Some y end.
Definition reduced (f : var -> list nat -> view axis -> option (arr num)) (x : var) (indices : list nat) : option var :=
  match reduced_var x indices (f x indices) with Some y => if_in_memory x y junk | None => None end.
(** ... no axes given: the number itself (as an array without axes) *)
Definition reduced_all (f : var -> list nat -> view axis -> option (arr num)) (x : var) : option (arr num) :=
  match reduced_var x (seq 0 (length (var_axes x))) (f x (seq 0 (length (var_axes x)))) with
  | Some y => var_get env junk y
  | None => None
  end.

(* reduce.py:74-84 MinVar *)
Definition min_view (x : var) (indices : list nat) (v : view axis) : option (arr num) :=
  accumulate1 x v PInf (fun a => Some (np_reduce np_amin a indices)) minimum.
(* reduce.py:86-96 NANMinVar: np.nanmin([out, block], 0) *)
Definition nanmin_view (x : var) (indices : list nat) (v : view axis) : option (arr num) :=
  accumulate1 x v NaN (fun a => Some (np_reduce np_nanmin a indices)) (fun o b => np_nanmin [o; b]).
(* reduce.py:98-108 MaxVar *)
Definition max_view (x : var) (indices : list nat) (v : view axis) : option (arr num) :=
  accumulate1 x v MInf (fun a => Some (np_reduce np_amax a indices)) maximum.
(* reduce.py:110-120 NANMaxVar *)
Definition nanmax_view (x : var) (indices : list nat) (v : view axis) : option (arr num) :=
  accumulate1 x v NaN (fun a => Some (np_reduce np_nanmax a indices)) (fun o b => np_nanmax [o; b]).

(* reduce.py:181-190 SumVar *)
Definition sum_view (x : var) (indices : list nat) (v : view axis) : option (arr num) :=
  accumulate1 x v zero (fun a => Some (np_reduce np_sum a indices)) add.
(* reduce.py:216-226 NANSumVar *)
Definition nansum_view (x : var) (indices : list nat) (v : view axis) : option (arr num) :=
  accumulate1 x v NaN (fun a => Some (np_reduce np_nansum a indices)) (fun o b => np_nansum [o; b]).
(* reduce.py:255-266 MeanVar *)
Definition mean_view (x : var) (indices : list nat) (v : view axis) : option (arr num) :=
  match sum_view x indices v with
  | Some out => Some (map_arr (fun s => div s (num_of_Z (count_reduced (var_axes x) indices))) out)
  | None => None
  end.
(** npnansum(~np.isnan(indata), ...) *)
Definition not_nan (x : num) : num := if is_nan x then zero else num_of_Z 1.
Definition count_view (x : var) (indices : list nat) (v : view axis) : option (arr num) :=
  accumulate1 x v NaN (fun a => Some (np_reduce np_nansum (map_arr not_nan a) indices)) (fun o b => np_nansum [o; b]).
(* reduce.py:296-315 NANMeanVar *)
Definition nanmean_view (x : var) (indices : list nat) (v : view axis) : option (arr num) :=
  match nansum_view x indices v, count_view x indices v with
  | Some out, Some N => zip_to (fun o n => if ltb zero n then div o n else NaN) out N
  | _, _ => None
  end.
(** the sum of the squares *)
Definition sumsq_view (x : var) (indices : list nat) (v : view axis) : option (arr num) :=
  accumulate1 x v zero (fun a => Some (np_reduce np_sum (map_arr (fun x => mul x x) a) indices)) add.
Definition nansumsq_view (x : var) (indices : list nat) (v : view axis) : option (arr num) :=
  accumulate1 x v NaN (fun a => Some (np_reduce np_nansum (map_arr (fun x => mul x x) a) indices)) (fun o b => np_nansum [o; b]).
(* reduce.py:353-367 VarianceVar *)
Definition variance_view (x : var) (indices : list nat) (v : view axis) : option (arr num) :=
  match sum_view x indices v, sumsq_view x indices v with
  | Some s, Some s2 =>
    let N := num_of_Z (count_reduced (var_axes x) indices) in
    zip_to (fun x2 x => let m := div x N in div (sub x2 (mul N (mul m m))) (sub N (num_of_Z 1))) s2 s
  | _, _ => None
  end.
(* reduce.py:400-425 NANVarianceVar *)
Definition nanvariance_view (x : var) (indices : list nat) (v : view axis) : option (arr num) :=
  match nansum_view x indices v, nansumsq_view x indices v, count_view x indices v with
  | Some s, Some s2, Some N =>
    match zip_to pair s N with
    | Some sN => zip_to (fun x2 '(x, n) => if ltb (num_of_Z 1) n
                                          then div (sub x2 (div (mul x x) n)) (sub n (num_of_Z 1)) else NaN) s2 sN
    | None => None
    end
  | _, _, _ => None
  end.
(* reduce.py:428-453 SDVar, NANSDVar; [sqrt] = np.sqrt *)
Definition sd_of (sqrt : num -> num) (variance : num) : num :=
  sqrt (if ltb zero variance || is_nan variance then variance else zero).
Definition sd_view (sqrt : num -> num) (x : var) (indices : list nat) (v : view axis) : option (arr num) :=
  match variance_view x indices v with Some a => Some (map_arr (sd_of sqrt) a) | None => None end.
Definition nansd_view (sqrt : num -> num) (x : var) (indices : list nat) (v : view axis) : option (arr num) :=
  match nanvariance_view x indices v with Some a => Some (map_arr (sd_of sqrt) a) | None => None end.

(** npsum(indata * inw, indices) *)
Definition weighted (agg : list num -> num) (pre : num -> num) (indices : list nat) (data : list (arr num)) : option (arr num) :=
  match data with
  | [a; w] => match zip_to mul (map_arr pre a) w with Some aw => Some (np_reduce agg aw indices) | None => None end
  | _ => None
  end.
(** the sum of the weights: npsum(inw, indices) * (indata.size / (inw.size * out[outsl].size)) *)
Definition weight_sum (indices : list nat) (data : list (arr num)) : option (arr num) :=
  match data with
  | [a; w] =>
    let f := div (num_of_Z (prod (shape a)))
                 (mul (num_of_Z (prod (shape w))) (num_of_Z (prod (kept_axes (shape a) indices)))) in
    Some (map_arr (fun s => mul s f) (np_reduce np_sum w indices))
  | _ => None
  end.
(* reduce.py:191-214 WeightedSumVar *)
Definition wsum_view (x w : var) (indices : list nat) (v : view axis) : option (arr num) :=
  accumulate [x; w] (var_axes x) v zero (weighted np_sum (fun x => x) indices) add.
Definition weights_view (x w : var) (indices : list nat) (v : view axis) : option (arr num) :=
  accumulate [x; w] (var_axes x) v zero (weight_sum indices) add.
(* reduce.py:267-294 WeightedMeanVar *)
Definition wmean_view (x w : var) (indices : list nat) (v : view axis) : option (arr num) :=
  match wsum_view x w indices v, weights_view x w indices v with
  | Some out, Some W => zip_to div out W
  | _, _ => None
  end.
(* reduce.py:227-253 WeightedNANSumVar *)
Definition wnansum_view (x w : var) (indices : list nat) (v : view axis) : option (arr num) :=
  accumulate [x; w] (var_axes x) v NaN (weighted np_nansum (fun x => x) indices) (fun o b => np_nansum [o; b]).
(* reduce.py:316-349 WeightedNANMeanVar: the weights of the values that are not NaN *)
Definition nanweights_view (x w : var) (indices : list nat) (v : view axis) : option (arr num) :=
  accumulate [x; w] (var_axes x) v NaN (weighted np_nansum not_nan indices) (fun o b => np_nansum [o; b]).
Definition wnanmean_view (x w : var) (indices : list nat) (v : view axis) : option (arr num) :=
  match wnansum_view x w indices v, nanweights_view x w indices v with
  | Some out, Some W => zip_to (fun o n => if ltb zero n then div o n else NaN) out W
  | _, _ => None
  end.
(* reduce.py:368-398 WeightedVarianceVar *)
Definition wsumsq_view (x w : var) (indices : list nat) (v : view axis) : option (arr num) :=
  accumulate [x; w] (var_axes x) v zero (weighted np_sum (fun x => mul x x) indices) add.
Definition wvariance_view (x w : var) (indices : list nat) (v : view axis) : option (arr num) :=
  match wsum_view x w indices v, wsumsq_view x w indices v, weights_view x w indices v with
  | Some s, Some s2, Some W =>
    match zip_to pair s W with
    | Some sW => zip_to (fun x2 '(x, W) => div (sub x2 (div (mul x x) W)) (sub W (num_of_Z 1))) s2 sW
    | None => None
    end
  | _, _, _ => None
  end.
(* reduce.py:194-203 (and the other weighted classes): every axis of the weights is one of the reduced axes *)
Definition weights_ok (x w : var) (indices : list nat) : bool :=
  let kept := kept_axes (var_axes x) indices in
  let raxes := filter (fun a => negb (existsb (fun b => axis_same b a) kept)) (var_axes x) in
  forallb (fun a => existsb (fun b => axis_same b a) raxes) (var_axes w).
Definition weighted_var (f : var -> var -> list nat -> view axis -> option (arr num)) (w x : var) (indices : list nat)
  : option var :=
  if weights_ok x w indices then reduced (fun x => f x w) x indices else None.

(** the first k with l[k] extreme; a NaN counts as extreme (np.argmax, np.argmin) *)
Fixpoint arg_extreme (better : num -> num -> bool) (l : list num) (k best_k : Z) (best : num) : Z :=
  match l with
  | [] => best_k
  | x :: t => if is_nan best then best_k
              else if is_nan x || better x best then arg_extreme better t (k + 1) k x
              else arg_extreme better t (k + 1) best_k best
  end.
Definition np_argmax (l : list num) : Z :=
  match l with [] => 0 | x :: t => arg_extreme (fun x y => ltb y x) t 1 0 x end.
Definition np_argmin (l : list num) : Z :=
  match l with [] => 0 | x :: t => arg_extreme ltb t 1 0 x end.
(* reduce.py:122-149, 151-179  ArgMaxVar, ArgMinVar: out[outsl] = np.argmax(indata, index) *)
Definition argmax_view (junkz : Z) (x : var) (index : nat) (v : view axis) : option (arr Z) :=
  accumulate1 x v junkz (fun a => Some (reduce_axis np_argmax a index)) (fun _ b => b).
Definition argmin_view (junkz : Z) (x : var) (index : nat) (v : view axis) : option (arr Z) :=
  accumulate1 x v junkz (fun a => Some (reduce_axis np_argmin a index)) (fun _ b => b).
(* reduce.py:124-140, 153-169  the __init__ methods; [index] = var.whichaxis(...) *)
Definition arg_var (f : var -> nat -> view axis -> option (arr Z)) (x : var) (index : nat) : option (ViewModel.var axis Z) :=
  if Nat.ltb index (length (var_axes x)) then if_in_memory x (Var (kept_axes (var_axes x) [index]) (GetView (f x index))) (fun _ => 0) else None.
End Kinds.

