(** Vocabulary for shifted and cut-out parts of a variable. *)
From Coq Require Import ZArith List Bool QArith_base Qabs.
From Verif Require Import CalModel CalSpec TimeSearchModel SortSpec IndexModel IndexSpec ArrModel ViewModel ViewSpec AxisModel AxisSpec VarOpsSpec ReduceSpec WindowModel.
Import ListNotations.
Open Scope Z_scope.

(** the time [w] (in units [u]) is [v] rounded to seconds *)
Definition nearly (u : CalModel.unit) (v w : Q) : Prop :=
  (Qabs ((w - v) * inject_Z (seconds_in u)) <= 1 # 2)%Q /\ (forall n, (v * inject_Z (seconds_in u) == inject_Z n)%Q -> (w == v)%Q).

(** the axis [b] has nothing to do with axes of class [cls] *)
Definition apart (cls : list Z) (b : axis) : Prop :=
  forall a, axis_class a = cls -> (match a with Coord c => c_kind c = Plain | _ => True end) -> unrelated a b /\ unrelated b a.

(** one number for each of [n] events *)
Definition amounts (m : amount) (n : nat) (l : list Z) : Prop :=
  match m with One z => l = repeat z n | Each l' => l = l' /\ length l = n end.
Definition largest (m : Z) (l : list Z) : Prop := In m l /\ forall x, In x l -> x <= m.
(** the offsets of a composite end before [last] *)
Definition offsets_end (evlen : amount) (lens offs : list Z) (last : Z) : Prop :=
  match evlen with
  | One z => exists first, largest first offs /\ last = z - first
  | Each _ => largest last (map (fun '(el, eo) => el - eo) (combine lens offs))
  end.
(** the event at index [ev] of a record of length [N] does not begin before the record, or else the offset axis
    (which ends before [last]) does not go beyond the event's own window nor beyond the record *)
Definition readable (N last ev el eo : Z) : Prop := 0 <= ev < N /\ (eo <= ev \/ last <= el - eo /\ last <= N - ev).

(** The class of [a] and the new one are siblings: neither is derived from the other *)
Definition siblings (c e : list Z) : Prop := comparable c e = false /\ comparable e c = false.

(** [dt] is the difference of two consecutive times, and no other such difference is smaller, except by rounding (no difference: 0) *)
Definition consecutive (vals : list Q) (d : Q) : Prop := exists i x y, nth_error vals i = Some x /\ nth_error vals (S i) = Some y /\ d = (y - x)%Q.
Definition time_step (vals : list Q) (dt : Q) : Prop :=
  ((length vals <= 1)%nat /\ dt = 0%Q) \/ (consecutive vals dt /\ forall d, consecutive vals d -> (dt <= d)%Q \/ np_close d dt).
