(** Vocabulary for correlation and regression. *)
From Coq Require Import ZArith List QArith_base Qcanon.
From Verif Require Import SortSpec IndexModel IndexSpec ArrModel ViewModel ViewSpec AxisModel AxisSpec VarOpsModel VarOpsSpec NumModel ReduceSpec ClimSpec UfuncSpec RegressModel.
Import ListNotations.
Open Scope Z_scope.

(** the axis [b] belongs to a dimension of [x] *)
Definition along_dimension (x : var axis num) (b : axis) : Prop := exists a l, In a (var_axes x) /\ restricts a l b.

(** the axes of [X] and [Y] fit together, and none is empty *)
Definition fitting (X Y : var axis num) : Prop :=
  let inputs := var_axes X ++ var_axes Y in
  (forall a, In a inputs -> tight_axis a /\ 0 < axis_len a) /\ (forall a b, In a inputs -> In b inputs -> compatible a b).
(** no infinities *)
Definition no_infinities (x : var axis num) (D : list Z -> num) : Prop := forall q, position (var_shape x) q -> D q <> PInf /\ D q <> MInf.

(** [outer] are the axes of the result, [over] those reduced over: together the combined axes of [X] and [Y], each once; reduced over are
    only dimensions that [X] and [Y] share: all of them, or those chosen (by their positions among the combined axes) *)
Definition splits (env : axenv) (X Y : var axis num) (axes : option (list nat)) (outer over : list axis) : Prop :=
  exists src, UfuncModel.combine_axes env [var_axes X; var_axes Y] = Some src /\ separate (outer ++ over) /\
    (forall b, In b src <-> In b outer \/ In b over) /\
    (forall b, In b over -> along_dimension X b /\ along_dimension Y b) /\
    match axes with
    | None => forall b, In b src -> along_dimension X b -> along_dimension Y b -> In b over
    | Some l => Forall2 (fun i b => nth_error src i = Some b) l over
    end.

(** the value of [x] at the coordinates of position [p] of [axes] *)
Definition value_there (x : var axis num) (D : list Z -> num) (axes : list axis) (p : list Z) (v : num) : Prop :=
  exists q, position (var_shape x) q /\ same_place (var_axes x) q axes p /\ v = D q.
(** the pairs of values of [X] and [Y] at the positions [k] ++ [r], for all [r] *)
Definition pairs_at (X Y : var axis num) (DX DY : list Z -> num) (outer over : list axis) (k : list Z) (pairs : list (num * num)) : Prop :=
  Forall2 (fun r '(u, v) => value_there X DX (outer ++ over) (k ++ r) u /\ value_there Y DY (outer ++ over) (k ++ r) v)
          (positions (map axis_len over)) pairs.
(** those without NaN *)
Definition points (pairs : list (num * num)) : list (Qc * Qc) :=
  flat_map (fun uv => match uv with (Fin x, Fin y) => [(x, y)] | _ => [] end) pairs.

(** sums of (products of) deviations from the mean *)
Definition spread (l : list Qc) : Qc := total (squares (map (fun q => (q - average l)%Qc) l)).
Definition joint_spread (l : list (Qc * Qc)) : Qc :=
  total (map (fun '(x, y) => ((x - average (map fst l)) * (y - average (map snd l)))%Qc) l).
Definition differ (l : list Qc) : Prop := exists p q, In p l /\ In q l /\ p <> q.
(** degrees of freedom *)
Definition freedom (N_fac : option Qc) (l : list (Qc * Qc)) : Qc :=
  (Q2Qc (inject_Z (IndexSpec.zlen l)) / (match N_fac with Some f => f | None => 1 end) - Q2Qc 2)%Qc.

(** slope, intercept and their uncertainties for these points *)
Definition regression (sqrt : num -> num) (cdf : num -> num -> num) (N_fac : option Qc) (l : list (Qc * Qc)) (f : fit) : Prop :=
  let dof := freedom N_fac l in
  let enough := (Q2Qc 0 < dof)%Qc /\ differ (map fst l) in
  (enough -> exists a b, best_line l a b /\ f_m f = Fin b /\ f_b f = Fin a /\
      let e := (squared_error l a b / dof)%Qc in
      f_se f = sqrt (Fin e) /\ f_sm f = sqrt (Fin (e / spread (map fst l))%Qc) /\
      f_p f = mul (num_of_Z 2) (sub (num_of_Z 1) (cdf (div (num_abs (Fin b)) (f_sm f)) (Fin dof)))) /\
  (~ enough -> f_m f = NaN /\ f_b f = NaN /\ f_se f = NaN /\ f_sm f = NaN /\ f_p f = NaN) /\
  (enough -> differ (map snd l) -> exists a b, best_line l a b /\ f_r2 f = Fin (1 - squared_error l a b / spread (map snd l))%Qc) /\
  (~ (enough /\ differ (map snd l)) -> f_r2 f = NaN).

(** correlation coefficient and its p-value *)
Definition correlation (sqrt : num -> num) (cdf : num -> num -> num) (l : list (Qc * Qc)) (c : corr) : Prop :=
  let enough := differ (map fst l) /\ differ (map snd l) in
  (enough -> c_r c = div (Fin (joint_spread l)) (sqrt (Fin (spread (map fst l) * spread (map snd l))%Qc)) /\
      c_r2 c = mul (c_r c) (c_r c) /\
      let n2 := sub (num_of_Z (IndexSpec.zlen l)) (num_of_Z 2) in
      let d := sub (num_of_Z 1) (c_r2 c) in
      c_p c = mul (num_of_Z 2) (sub (num_of_Z 1) (cdf (mul (num_abs (c_r c)) (sqrt (div n2 (if ltb d (Fin (Q2Qc (1 # 100000000))) then Fin (Q2Qc (1 # 100000000)) else d)))) n2))) /\
  (~ enough -> c_r c = NaN /\ c_r2 c = NaN /\ c_p c = NaN).
(** the root of a number is positive exactly if the number is *)
Definition root_sign (sqrt : num -> num) : Prop := forall q, (Q2Qc 0 <= q)%Qc -> (ltb zero (sqrt (Fin q)) = true <-> (Q2Qc 0 < q)%Qc).
