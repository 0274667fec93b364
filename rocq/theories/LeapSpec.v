(** Vocabulary for removeleapyears. *)
From Coq Require Import ZArith List.
From Verif Require Import CalModel CalSpec SortSpec TimeSearchModel IndexModel IndexSpec ArrModel ViewModel AxisModel AxisSpec VarOpsSpec.
Import ListNotations.
Open Scope Z_scope.

(** a date of which only some fields are known (a monthly axis, say): the others are those of the beginning *)
Definition complete (k : mask) (d : date) : date :=
  mkdate (if my k then year d else 0) (if mm k then month d else 1) (if md k then day d else 1)
         (if mh k then hour d else 0) (if mmi k then minute d else 0) (if ms k then second d else 0).

(** the years come in order *)
Definition in_year_order (l : list date) : Prop :=
  forall i j a b, elem l i a -> elem l j b -> i < j -> year a <= year b.

(** the number of days of a year *)
Definition year_length (c : cal) (y n : Z) : Prop :=
  match c with
  | Std => leap_year y /\ n = 366 \/ ~ leap_year y /\ n = 365
  | C365 => n = 365
  | C360 => n = 360
  | Yearless => False
  end.

(** [out] = the days to leave out of the year [y] *)
Definition to_omit (c : cal) (leap noleap : list Z) (y : Z) (out : list Z) : Prop :=
  (c = Std /\ leap_year y) /\ out = leap \/ ~ (c = Std /\ leap_year y) /\ out = noleap.

(** the lists of days make sense: no repetition, days of the year, and what is left fits into a year of the new calendar *)
Definition sensible (c c' : cal) (leap noleap : list Z) (y : Z) : Prop :=
  forall out n n', to_omit c leap noleap y out -> year_length c y n -> year_length c' y n' ->
    NoDup out /\ Forall (fun o => 1 <= o <= n) out /\ n - zlen out <= n'.

(** the day of [d] (in calendar [c]) is one of those to leave out *)
Definition left_out (c : cal) (leap noleap : list Z) (d : date) : Prop :=
  exists out n, to_omit c leap noleap (year d) out /\ day_of_year c (year d) (month d) (day d) n /\ In n out.

(** [e], in calendar [c'], is the same time of the same year as [d] in [c], counting only the days that are not left out *)
Definition relabelled (c c' : cal) (leap noleap : list Z) (d e : date) : Prop :=
  valid_date c' e /\ year e = year d /\ hour e = hour d /\ minute e = minute d /\ second e = second d /\
  exists out n, to_omit c leap noleap (year d) out /\ day_of_year c (year d) (month d) (day d) n /\
    day_of_year c' (year e) (month e) (day e) (n - zlen (filter (fun o => o <? n) out)).

(** [x] has exactly one time axis, number [ti] *)
Definition one_time_axis {V} (x : var axis V) (ti : nat) (t : taxis) : Prop :=
  nth_error (var_axes x) ti = Some (Time t) /\ forall i s, nth_error (var_axes x) i = Some (Time s) -> i = ti.

(** a time axis of class [cls] can stand beside the other axes *)
Definition room_for {V} (x : var axis V) (ti : nat) (cls : list Z) : Prop :=
  forall i b u, i <> ti -> nth_error (var_axes x) i = Some b -> t_class u = cls -> unrelated b (Time u) /\ unrelated (Time u) b.
