(** Vocabulary for packed data. *)
From Coq Require Import ZArith List QArith_base Qcanon.
From Verif Require Import SortSpec IndexModel IndexSpec ArrModel ViewModel ViewSpec AxisModel VarOpsModel VarOpsSpec NumModel.
Open Scope Z_scope.

(** [lo] and [hi] are the least and greatest number among the data [D] of [x] *)
Definition extremes {V} (x : var axis V) (D : list Z -> num) (lo hi : Qc) : Prop :=
  (exists q, position (var_shape x) q /\ D q = Fin lo) /\ (exists q, position (var_shape x) q /\ D q = Fin hi) /\
  forall q d, position (var_shape x) q -> D q = Fin d -> (lo <= d)%Qc /\ (d <= hi)%Qc.
(** the range of the data divided into 65534 steps *)
Definition packing_step (lo hi : Qc) : Qc := ((hi - lo) / Q2Qc (inject_Z 65534))%Qc.
