(** Vocabulary for the time axis that is made up for many files. *)
From Coq Require Import ZArith List Bool QArith_base.
From Verif Require Import CalModel CalSpec TimeSearchModel AxisModel AxisSpec.
Import ListNotations.
Open Scope Z_scope.

(** consecutive dates are [s] seconds apart *)
Definition evenly (c : cal) (dates : list date) (s : Z) : Prop :=
  forall i a b, nth_error dates i = Some a -> nth_error dates (S i) = Some b -> c_date_as_val c a b = Some s.

(** a time axis that has all the fields of its calendar *)
Definition every_field (c : cal) : mask := match c with Yearless => mkmask false false true true true true | _ => mkmask true true true true true true end.
Definition complete (t : taxis) : Prop :=
  t_mask t = every_field (t_cal t) /\ t_start t = mask_date (every_field (t_cal t)) (get_dates (t_start t)) /\
  good_start (t_cal t) (get_dates (t_start t)) /\ Forall (valid_date (t_cal t)) (t_dates t) /\
  map (axis_value (t_cal t) (t_start t) (t_units t) (t_mask t)) (t_dates t) = map Some (t_vals t).
