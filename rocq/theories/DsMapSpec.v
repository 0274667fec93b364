(** Vocabulary for selection in a dataset. *)
From Coq Require Import ZArith List String Ascii.
From Verif Require Import IndexModel IndexSpec ArrModel ViewModel AxisModel AxisSpec VarOpsModel VarOpsSpec SelectModel SelectSpec DatasetModel.
Import ListNotations.
Open Scope Z_scope.
Open Scope list_scope.

(** an axis that is equal (==) to itself *)
Definition self_equal (a : axis) : Prop := match a with Coord c => c_kind c <> Dummy | _ => True end.
(** the keywords have no m and no s: there is nothing to strip and no mean or squeeze is asked for *)
Definition plain_keys (N : naming) (axes : list axis) (kw : list (string * request)) : Prop :=
  Forall2 (strips N axes) kw kw /\ forall kv ax, In kv kw -> ~ asks N axes "m"%char kv ax /\ ~ asks N axes "s"%char kv ax.
(** the keywords make sense for this variable *)
Definition selectable {V} (N : naming) (env : axenv) (kw : list (string * request)) (v : vobj V) : Prop :=
  (exists D, holds env (var_of v) D) /\ Forall (full_arrays N) (map a_axis (v_axes v)) /\
  plain_keys N (map a_axis (v_axes v)) kw /\ good_keywords N (map a_axis (v_axes v)) kw.
(** no keyword is about two different axes *)
Definition one_axis_each (N : naming) (P : list axobj) (kw : list (string * request)) : Prop :=
  forall k a b, In k (map fst kw) -> In a P -> In b P -> about N (a_axis a) k -> about N (a_axis b) k -> a = b.
(** variable [w] is variable [v] restricted on each axis to the elements chosen by the keywords about that axis *)
Definition restricted {V} (N : naming) (env : axenv) (kw : list (string * request)) (v w : vobj V) : Prop :=
  v_name w = v_name v /\ map a_name (v_axes w) = map a_name (v_axes v) /\
  exists inds, Forall2 (fun a l => selected N (a_axis a) (fun k r => In (k, r) kw) l) (v_axes v) inds /\
    Forall2 (fun '(a, b) l => sliced (a_axis a) l (a_axis b)) (combine (v_axes v) (v_axes w)) inds /\
    forall D, holds env (var_of v) D -> exists D', holds env (var_of w) D' /\ forall p q, picks inds p q -> D' p = D q.
