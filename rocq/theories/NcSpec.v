(** Vocabulary for files. *)
From Coq Require Import ZArith List QArith_base String.
From Verif Require Import IndexModel IndexSpec ArrModel ViewModel AxisModel AxisSpec VarOpsModel VarOpsSpec ReduceSpec DatasetModel DatasetSpec NcModel.
Import ListNotations.
Open Scope Z_scope.
Open Scope list_scope.

(** a NamedAxis or DummyAxis with distinguishable values: what encode_cf makes of every axis *)
Definition file_axis (enc : string -> Z) (a : axobj) : Prop :=
  good_axis (a_axis a) /\ exists c, a_axis a = Coord c /\ c_kind c <> Plain /\ c_name c = enc (a_name a) /\ c_vals c <> [] /\ c_atts c = [].
(** variables that can be stored: each can be read, different variables and axes have different names, the axes even if case is ignored,
    and no axis is called by the name of a class of axes *)
Definition storable (env : axenv) (enc : string -> Z) (vars : list (vobj Q)) : Prop :=
  well_named vars /\ Forall (file_axis enc) (axes_of vars) /\
  (forall v, In v vars -> exists D, responds env (var_of v) D) /\
  (forall v a, In v vars -> In a (axes_of vars) -> v_name v <> a_name a) /\
  (forall a b, In a (axes_of vars) -> In b (axes_of vars) -> lower (a_name a) = lower (a_name b) -> a = b) /\
  (forall a, In a (axes_of vars) -> ~ In (lower (a_name a)) [""; "ncdim"; "dummyaxis"; "namedaxis"; "axis"]%string).

(** the same axis: same name, same values; an axis without values of its own (DummyAxis) is one afterwards *)
Definition same_axis (a b : axobj) : Prop :=
  a_name b = a_name a /\ axis_len (a_axis b) = axis_len (a_axis a) /\ is_dummy b = is_dummy a /\ (is_dummy a = false -> axis_vals (a_axis b) = axis_vals (a_axis a)).
(** the same variable: same name, same axes in the same order, and the same data whatever part of it is read *)
Definition same_variable (env : axenv) (v w : vobj Q) : Prop :=
  v_name w = v_name v /\ Forall2 same_axis (v_axes v) (v_axes w) /\ forall D, responds env (var_of v) D -> responds env (var_of w) D.
