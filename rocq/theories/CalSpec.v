(** Independent specification of the calendars, in textbook terms.
    Only the record [date] and the type [cal] are shared with the model. *)
From Coq Require Import ZArith List Bool.
From Verif Require Import CalModel.
Open Scope Z_scope.

(** Gregorian leap-year rule, by divisibility. *)
Definition leap_year (y : Z) : Prop := (4 | y) /\ (~ (100 | y) \/ (400 | y)).

(** Length of month [m] (1..12) of year [y]; [L] tells whether the year is a leap year. *)
Inductive month_length : cal -> Z -> Z -> Z -> Prop :=
| ml_360 y m : 1 <= m <= 12 -> month_length C360 y m 30
| ml_feb_leap y : leap_year y -> month_length Std y 2 29
| ml_feb_std y : ~ leap_year y -> month_length Std y 2 28
| ml_feb_365 y : month_length C365 y 2 28
| ml_30 c y m : (c = Std \/ c = C365) -> (m = 4 \/ m = 6 \/ m = 9 \/ m = 11) -> month_length c y m 30
| ml_31 c y m : (c = Std \/ c = C365) ->
    (m = 1 \/ m = 3 \/ m = 5 \/ m = 7 \/ m = 8 \/ m = 10 \/ m = 12) -> month_length c y m 31.

(** A clock time of day. *)
Definition valid_time (d : date) : Prop :=
  0 <= hour d < 24 /\ 0 <= minute d < 60 /\ 0 <= second d < 60.

(** A date that exists in the calendar.  The yearless calendar only counts days. *)
Definition valid_date (c : cal) (d : date) : Prop :=
  valid_time d /\
  match c with
  | Yearless => year d = 0 /\ month d = 1
  | _ => exists n, month_length c (year d) (month d) n /\ 1 <= day d <= n
  end.

(** Chronological order = lexicographic order of the fields. *)
Definition earlier (a b : date) : Prop :=
  year a < year b \/ (year a = year b /\
  (month a < month b \/ (month a = month b /\
  (day a < day b \/ (day a = day b /\
  (hour a < hour b \/ (hour a = hour b /\
  (minute a < minute b \/ (minute a = minute b /\
   second a < second b))))))))).

(** One tick of the clock: [tick c a b] when [b] is the second right after [a]. *)
Inductive tick (c : cal) : date -> date -> Prop :=
| t_sec y m d h mi s : 0 <= s < 59 ->
    tick c (mkdate y m d h mi s) (mkdate y m d h mi (s + 1))
| t_min y m d h mi : 0 <= mi < 59 ->
    tick c (mkdate y m d h mi 59) (mkdate y m d h (mi + 1) 0)
| t_hour y m d h : 0 <= h < 23 ->
    tick c (mkdate y m d h 59 59) (mkdate y m d (h + 1) 0 0)
| t_day y m d n : c <> Yearless -> month_length c y m n -> 1 <= d < n ->
    tick c (mkdate y m d 23 59 59) (mkdate y m (d + 1) 0 0 0)
| t_month y m n : c <> Yearless -> month_length c y m n -> m < 12 ->
    tick c (mkdate y m n 23 59 59) (mkdate y (m + 1) 1 0 0 0)
| t_year y n : c <> Yearless -> month_length c y 12 n ->
    tick c (mkdate y 12 n 23 59 59) (mkdate (y + 1) 1 1 0 0 0)
| t_count d : c = Yearless ->
    tick c (mkdate 0 1 d 23 59 59) (mkdate 0 1 (d + 1) 0 0 0).

(** Start dates the code accepts (it raises IndexError / asserts otherwise). *)
Definition good_start (c : cal) (i : date) : Prop :=
  match c with
  | Std | C365 => 1 <= month i <= 12
  | C360 => True
  | Yearless => year i = 0 /\ month i = 1
  end.

(** a complete date dictionary *)
Definition full (d : date) : pdate :=
  mkpdate (Some (year d)) (Some (month d)) (Some (day d)) (Some (hour d)) (Some (minute d)) (Some (second d)).

(** the length of a unit of time, in seconds *)
Definition seconds_in (u : unit) : Z :=
  match u with Seconds => 1 | Minutes => 60 | Hours => 60 * 60 | Days => 24 * (60 * 60) end.

(** day of year: 1 + number of days before the month + (day - 1), textbook sum *)
Inductive day_of_year (c : cal) (y : Z) : Z -> Z -> Z -> Prop :=
| doy_jan d : day_of_year c y 1 d d
| doy_next m d n k : month_length c y m n -> day_of_year c y m (d + n) k ->
    day_of_year c y (m + 1) d k.

(** Meteorological seasons: 1 = Dec-Feb (of the year of January), 2 = Mar-May,
    3 = Jun-Aug, 4 = Sep-Nov. *)
Inductive season_of (y : Z) : Z -> Z -> Z -> Prop :=   (* month, season year, season *)
| so_dec : season_of y 12 (y + 1) 1
| so_djf m : m = 1 \/ m = 2 -> season_of y m y 1
| so_mam m : m = 3 \/ m = 4 \/ m = 5 -> season_of y m y 2
| so_jja m : m = 6 \/ m = 7 \/ m = 8 -> season_of y m y 3
| so_son m : m = 9 \/ m = 10 \/ m = 11 -> season_of y m y 4.

(** the four days that the standard calendar puts into the wrong season *)
Definition boundary_day (m d : Z) : Prop :=
  (m = 2 /\ d = 29) \/ (m = 5 /\ d = 31) \/ (m = 8 /\ d = 31) \/ (m = 11 /\ d = 30).

(** Dates accepted by date_as_val (any integers; the yearless calendar insists on month 1). *)
Definition good_any (c : cal) (x : date) : Prop := match c with Yearless => month x = 1 | _ => True end.
