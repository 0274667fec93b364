(** What it means to write a time axis as text and numbers.  Decimal numerals and names, with no reference to the code. *)
From Coq Require Import ZArith List Bool QArith_base Ascii String.
From Verif Require Import CalModel CalSpec TimeSearchModel AxisModel.
Import ListNotations.
Open Scope Z_scope.

(** [s] is a decimal numeral, leading zeros allowed, of the number [n] *)
Inductive numeral : string -> Z -> Prop :=
| numeral_one c d : String.get d "0123456789" = Some c -> numeral (String c EmptyString) (Z.of_nat d)
| numeral_more s n c d : numeral s n -> String.get d "0123456789" = Some c ->
    numeral (s ++ String c EmptyString) (10 * n + Z.of_nat d).

(** names of the units, singular or plural *)
Inductive names_unit : string -> CalModel.unit -> Prop :=
| nu_second : names_unit "second" Seconds | nu_seconds : names_unit "seconds" Seconds
| nu_minute : names_unit "minute" Minutes | nu_minutes : names_unit "minutes" Minutes
| nu_hour : names_unit "hour" Hours | nu_hours : names_unit "hours" Hours
| nu_day : names_unit "day" Days | nu_days : names_unit "days" Days.

(** the calendars' names in the CF conventions *)
Inductive names_calendar : string -> cal -> Prop :=
| nc_standard : names_calendar "standard" Std | nc_gregorian : names_calendar "gregorian" Std
| nc_proleptic : names_calendar "proleptic_gregorian" Std
| nc_365 : names_calendar "365_day" C365 | nc_noleap : names_calendar "noleap" C365
| nc_360 : names_calendar "360_day" C360 | nc_none : names_calendar "none" Yearless.

(** "<unit> since <year>-<month>-<day>[ <hour>:<minute>[:<second>]]", the date and the time of day separated by a blank or a T *)
Inductive reference : string -> CalModel.unit -> date -> Prop :=
| ref_date r u ys ms ds y m d : names_unit r u -> numeral ys y -> numeral ms m -> numeral ds d ->
    reference (r ++ " since " ++ ys ++ "-" ++ ms ++ "-" ++ ds) u (mkdate y m d 0 0 0)
| ref_minute r u ys ms ds hs mis y m d h mi sep : names_unit r u -> numeral ys y -> numeral ms m -> numeral ds d ->
    numeral hs h -> numeral mis mi -> sep = " "%string \/ sep = "T"%string ->
    reference (r ++ " since " ++ ys ++ "-" ++ ms ++ "-" ++ ds ++ sep ++ hs ++ ":" ++ mis) u (mkdate y m d h mi 0)
| ref_second r u ys ms ds hs mis ss y m d h mi s sep : names_unit r u -> numeral ys y -> numeral ms m -> numeral ds d ->
    numeral hs h -> numeral mis mi -> numeral ss s -> sep = " "%string \/ sep = "T"%string ->
    reference (r ++ " since " ++ ys ++ "-" ++ ms ++ "-" ++ ds ++ sep ++ hs ++ ":" ++ mis ++ ":" ++ ss) u (mkdate y m d h mi s).

(** The instants a time axis stands for: fields it does not carry count as year 0, January, the 1st, midnight. *)
Definition instants (t : taxis) : list date := map (fun d => get_dates (mask_date (t_mask t) d)) (t_dates t).

(** A time axis as the constructors make it: it carries some fields, its dates exist, the start date has the fields that the
    axis has, and its values are the times elapsed since then. *)
Record time_axis (tcls : cal -> class) (t : taxis) (start : date) : Prop := TimeAxis {
  ta_class : t_class t = tcls (t_cal t);
  ta_start : t_start t = mask_date (t_mask t) start;
  ta_good : good_start (t_cal t) (get_dates (t_start t));
  ta_dates : Forall (valid_date (t_cal t)) (t_dates t);
  ta_vals : map (axis_value (t_cal t) (t_start t) (t_units t) (t_mask t)) (t_dates t) = map Some (t_vals t) }.

(** no field of the start date is negative *)
Definition nonnegative (d : date) : Prop :=
  0 <= year d /\ 0 <= month d /\ 0 <= day d /\ 0 <= hour d /\ 0 <= minute d /\ 0 <= second d.

(** Two time axes with the same calendar, units, start, fields, values, and contents of the fields *)
Definition same_times (a b : taxis) : Prop :=
  t_class a = t_class b /\ t_cal a = t_cal b /\ t_units a = t_units b /\ t_start a = t_start b /\ t_mask a = t_mask b /\
  map (mask_date (t_mask a)) (t_dates a) = map (mask_date (t_mask b)) (t_dates b) /\ t_vals a = t_vals b.
