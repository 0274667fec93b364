(** What combining data with a climatology of the same data means. *)
From Coq Require Import ZArith List Bool QArith_base Qcanon.
From Verif Require Import CalModel TimeSearchModel IndexModel IndexSpec ArrModel ViewModel ViewSpec AxisModel AxisSpec VarOpsModel VarOpsSpec NumModel ReduceModel ReduceSpec StencilSpec ClimModel ClimSpec.
Import ListNotations.
Open Scope Z_scope.

(** the times of the axis whose fields [k] are those of time [i] *)
Definition like (k : mask) (t : taxis) (i : Z) : list Z :=
  filter (fun j => if list_eq_dec Z.eq_dec (record_of k t j) (record_of k t i) then true else false) (arange 0 (zlen (t_dates t)) 1).
(** the data [D] at all the times in the group of position [p] *)
Definition group_of (D : list Z -> num) (k : mask) (t : taxis) (ti : nat) (p : list Z) : list num :=
  map (fun i => D (moved p ti i)) (like k t (nth ti p 0)).
(** the times asked for: one time only, or times of at least two groups *)
Definition mixed (k : mask) (t : taxis) (l : list Z) : Prop :=
  zlen l = 1 \/ exists i j, In i l /\ In j l /\ record_of k t i <> record_of k t j.
