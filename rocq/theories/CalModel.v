(** Model of the calendar arithmetic of pygeode.
    Sources: /repo/pygeode/timeaxis.c (lines 208-598) and
             /repo/pygeode/timeaxis.py (class CalendarTime and subclasses).

    Simplifications, valid for every definition in this file:
    - C [int] / [long long] values are unbounded [Z].  C division and remainder
      are [Z.quot]/[Z.rem] (truncating); [floor(x/4.)] is [Z.div] (flooring).
      The absence of overflow is treated separately (CalRange.v).
    - the C functions process arrays element by element, with no dependence
      between elements; the model is the loop body (one element).
    - [None] stands for the Python exception raised by [check_month]
      (timeaxis.c:251) or the failure code -1 of date_as_val_yearless, or a
      C assertion failure. *)
From Coq Require Import ZArith List Bool.
From Verif Require Import Loop.
Import ListNotations.
Open Scope Z_scope.

(** The six fields the C routines exchange (timeaxis.c:254-258). *)
Record date := mkdate { year : Z; month : Z; day : Z; hour : Z; minute : Z; second : Z }.

(* timeaxis.c:217  #define isleap(y) (y % 4 == 0 && (y % 100 != 0 || y % 400 == 0)) *)
Definition isleap (y : Z) : bool :=
  (Z.rem y 4 =? 0) && (negb (Z.rem y 100 =? 0) || (Z.rem y 400 =? 0)).

(* timeaxis.c:220-247  ndays: days from Jan 1 of year1 to Jan 1 of year2 *)
Definition ndays (year1 year2 : Z) : Z :=
  let year1 := year1 - 1 in
  let year2 := year2 - 1 in
  let out := (year2 - year1) * 365 in
  let out := out + (year2 / 4 - year1 / 4) in
  let out := out - (year2 / 100 - year1 / 100) in
  let out := out + (year2 / 400 - year1 / 400) in
  out.

(* timeaxis.c:260-263, 296-299, 387, 421: static const int month2doy[...][13]; the index
   is only ever 1..12 (proved), so the default of [nth] is never observed *)
Definition month2doy_tab (leap : bool) : list Z :=
  if leap then [0; 0; 31; 60; 91; 121; 152; 182; 213; 244; 274; 305; 335]
  else [0; 0; 31; 59; 90; 120; 151; 181; 212; 243; 273; 304; 334].
Definition month2doy (leap : bool) (m : Z) : Z := nth (Z.to_nat m) (month2doy_tab leap) 0.

(* timeaxis.c:251  check_month *)
Definition check_month (m : Z) : bool := negb ((m <=? 0) || (m >? 12)).

(* timeaxis.c:273-277 (and 397-401): "Wrap month" *)
Definition wrap_dy (m : Z) : Z := if m <? 1 then Z.quot (m - 12) 12 else Z.quot (m - 1) 12.

(* timeaxis.c:254-286  date_as_val_std, start date [i], loop body for date [x] *)
Definition ref_std (i : date) : Z :=
  (month2doy (isleap (year i)) (month i) + day i - 1) * 86400
  + hour i * 3600 + minute i * 60 + second i.

Definition date_as_val_std (i x : date) : option Z :=
  if check_month (month i) then
    let ref := ref_std i in
    let y := year x in
    let m := month x in
    let dy := wrap_dy m in
    let y := y + dy in
    let m := m - dy * 12 in
    let v := (ndays (year i) y + month2doy (isleap y) m + day x - 1) * 86400 in
    let v := v + (hour x * 3600 + minute x * 60 + second x) in
    Some (v - ref)
  else None.

(* timeaxis.c:310-315  while (s < 0) { ... } *)
Definition back_step (st : Z * Z) : (Z * Z) + (Z * Z) :=
  let '(s, y) := st in
  if s <? 0 then
    let y_back := y - 1 - Z.quot (Z.quot (- s) 365) 86400 in
    inl (s + ndays y_back y * 86400, y_back)
  else inr (s, y).

(* timeaxis.c:343-346  while (d >= ndays(y,y+1)) { d -= ndays(y,y+1); y++; } *)
Definition fwd_step (st : Z * Z) : (Z * Z) + (Z * Z) :=
  let '(d, y) := st in
  if d >=? ndays y (y + 1) then inl (d - ndays y (y + 1), y + 1) else inr (d, y).

(* timeaxis.c:358 (and 455)  while (month2doy[l][m] > d) m--;  (estimate m <= 12) *)
Fixpoint month_down (fuel : nat) (tab : Z -> Z) (over : Z -> bool) (m : Z) : option Z :=
  match fuel with
  | O => None
  | S k => if over (tab m) then month_down k tab over (m - 1) else Some m
  end.

(* timeaxis.c:290-370  val_as_date_std *)
Definition val_as_date_std (i : date) (val : Z) : option date :=
  if check_month (month i) then
    let s := val + ref_std i in
    match loop (fuel_for (Z.abs s + 1)) back_step (s, year i) with
    | inl _ => None
    | inr (s, y) =>
      let d := Z.quot s 86400 in
      let s := s - d * 86400 in
      let h := Z.quot s 3600 in
      let s := Z.rem s 3600 in
      let mi := Z.quot s 60 in
      let sec := Z.rem s 60 in
      let y_forward := y + Z.quot d 366 in
      let d := d - ndays y y_forward in
      let y := y_forward in
      match loop (fuel_for (Z.abs d)) fwd_step (d, y) with
      | inl _ => None
      | inr (d, y) =>
        let m := Z.quot d 29 + 1 in
        let m := if m >? 12 then 12 else m in
        let l := isleap y in
        match month_down 13 (month2doy l) (fun t => t >? d) m with
        | None => None
        | Some m => Some (mkdate y m (d - month2doy l m + 1) h mi sec)
        end
      end
    end
  else None.

(* timeaxis.c:381-410  date_as_val_365 *)
Definition date_as_val_365 (i x : date) : option Z :=
  if check_month (month i) then
    let ref := (month2doy false (month i) + day i - 1) * 86400
               + hour i * 3600 + minute i * 60 + second i in
    let dy := wrap_dy (month x) in
    let y := year x + dy in
    let m := month x - dy * 12 in
    let v := (365 * (y - year i) + month2doy false m + day x - 1) * 86400 in
    let v := v + (hour x * 3600 + minute x * 60 + second x) in
    Some (v - ref)
  else None.

(* timeaxis.c:430-437 / 506-513  seconds -> (days, h, m, s), floor via "if (s < 0)" *)
Definition split_day (s : Z) : Z * (Z * Z * Z) :=
  let d := Z.quot s 86400 in
  let s := s - d * 86400 in
  let '(s, d) := if s <? 0 then (s + 86400, d - 1) else (s, d) in
  let h := Z.quot s 3600 in
  let s := Z.rem s 3600 in
  (d, (h, Z.quot s 60, Z.rem s 60)).

(* timeaxis.c:439-450 / 515-526  "Get year / day-of-year" with year length L *)
Definition year_doy (L y d : Z) : Z * Z :=
  let '(y, d) := if d <=? 0 then
      let ny := Z.quot (L - d) L in (y - ny, d + L * ny) else (y, d) in
  if d >? L then
    let ny := Z.quot (d - 1) L in (y + ny, d - L * ny) else (y, d).

(* timeaxis.c:415-462  val_as_date_365 *)
Definition val_as_date_365 (i : date) (val : Z) : option date :=
  if check_month (month i) then
    let ref := (month2doy false (month i) + day i) * 86400
               + hour i * 3600 + minute i * 60 + second i in
    let '(d, (h, mi, sec)) := split_day (val + ref) in
    let '(y, d) := year_doy 365 (year i) d in
    let m := Z.quot d 30 + 1 in
    let m := if m >? 12 then 12 else m in
    match month_down 13 (month2doy false) (fun t => t >=? d) m with
    | None => None
    | Some m => Some (mkdate y m (d - month2doy false m) h mi sec)
    end
  else None.

(* timeaxis.c:472-491  date_as_val_360 (no check_month, no month wrap: linear) *)
Definition ref_360 (i : date) : Z :=
  ((month i - 1) * 30 + day i) * 86400 + hour i * 3600 + minute i * 60 + second i.
Definition date_as_val_360 (i x : date) : option Z :=
  let v := (360 * (year x - year i) + (month x - 1) * 30 + day x) * 86400 in
  let v := v + (hour x * 3600 + minute x * 60 + second x) in
  Some (v - ref_360 i).

(* timeaxis.c:494-536  val_as_date_360 *)
Definition val_as_date_360 (i : date) (val : Z) : option date :=
  let '(d, (h, mi, sec)) := split_day (val + ref_360 i) in
  let '(y, d) := year_doy 360 (year i) d in
  let m := Z.quot (d - 1) 30 + 1 in
  Some (mkdate y m (d - 30 * (m - 1)) h mi sec).

(* timeaxis.c:547-572  date_as_val_yearless; the asserts on the start date are
   failures here; a nonzero year only prints a message *)
Definition date_as_val_yearless (i x : date) : option Z :=
  if (year i =? 0) && (month i =? 1) then
    if month x =? 1 then
      Some ((day x - day i) * 86400 + (hour x - hour i) * 3600
            + (minute x - minute i) * 60 + (second x - second i))
    else None
  else None.

(* timeaxis.c:575-598  val_as_date_yearless; floor(x/86400.) is exact for |x| < 2^53 *)
Definition val_as_date_yearless (i : date) (val : Z) : option date :=
  if (year i =? 0) && (month i =? 1) then
    let ref := day i * 86400 + hour i * 3600 + minute i * 60 + second i in
    let x := val + ref in
    let dd := x / 86400 in
    let x := x - dd * 86400 in
    let sec := Z.rem x 60 in let x := Z.quot x 60 in
    let mi := Z.rem x 60 in let x := Z.quot x 60 in
    let h := Z.rem x 24 in
    Some (mkdate 0 1 dd h mi sec)
  else None.

(** The calendars a user can choose (timeaxis.py:783-816 StandardTime,
    ModelTime365, ModelTime360; 1012-1058 Yearless). *)
Inductive cal := Std | C365 | C360 | Yearless.

Definition c_date_as_val (c : cal) : date -> date -> option Z :=
  match c with Std => date_as_val_std | C365 => date_as_val_365
             | C360 => date_as_val_360 | Yearless => date_as_val_yearless end.
Definition c_val_as_date (c : cal) : date -> Z -> option date :=
  match c with Std => val_as_date_std | C365 => val_as_date_365
             | C360 => val_as_date_360 | Yearless => val_as_date_yearless end.

(** ** The Python layer *)
From Coq Require Import QArith_base.
Open Scope Z_scope.

(** A date dictionary with possibly missing fields (timeaxis.py:663-704). *)
Record pdate := mkpdate { pyear : option Z; pmonth : option Z; pday : option Z;
                          phour : option Z; pminute : option Z; psecond : option Z }.

Definition dflt (o : option Z) (z : Z) : Z := match o with Some x => x | None => z end.

(* timeaxis.py:663-704  CalendarTime._get_dates, scalar dates: year 0, month 1,
   day 1, 00:00:00 are filled in *)
Definition get_dates (p : pdate) : date :=
  mkdate (dflt (pyear p) 0) (dflt (pmonth p) 1) (dflt (pday p) 1)
         (dflt (phour p) 0) (dflt (pminute p) 0) (dflt (psecond p) 0).

(* timeaxis.py:352  unitfactor *)
Inductive unit := Seconds | Minutes | Hours | Days.
Definition unitfactor (u : unit) : positive :=
  match u with Seconds => 1 | Minutes => 60 | Hours => 3600 | Days => 86400 end.

(* np.round (used at timeaxis.py:720): round half to even, on an exact rational *)
Definition round_half_even (q : Q) : Z :=
  let n := Qnum q in let d := Zpos (Qden q) in
  let f := n / d in
  let r := 2 * (n - f * d) in
  if r <? d then f
  else if r >? d then f + 1
  else if Z.even f then f else f + 1.

(* timeaxis.py:735  date = dict([k,v] ... if k in startdate) *)
Definition keep (o : option Z) (v : Z) : option Z := match o with Some _ => Some v | None => None end.

(* timeaxis.py:708-741  CalendarTime.val_as_date for one (scalar) value.
   Simplification: float64 values are exact rationals. *)
Definition val_as_date (c : cal) (startdate : pdate) (u : unit) (allfields : bool) (v : Q)
  : option pdate :=
  match c_val_as_date c (get_dates startdate)
          (round_half_even (v * inject_Z (Zpos (unitfactor u)))) with
  | None => None
  | Some x =>
    if allfields then
      Some (mkpdate (Some (year x)) (Some (month x)) (Some (day x))
                    (Some (hour x)) (Some (minute x)) (Some (second x)))
    else
      Some (mkpdate (keep (pyear startdate) (year x)) (keep (pmonth startdate) (month x))
                    (keep (pday startdate) (day x)) (keep (phour startdate) (hour x))
                    (keep (pminute startdate) (minute x)) (keep (psecond startdate) (second x)))
  end.

(* timeaxis.py:744-772  CalendarTime.date_as_val for one (scalar) date *)
Definition date_as_val (c : cal) (startdate : pdate) (u : unit) (d : pdate) : option Q :=
  match c_date_as_val c (get_dates startdate) (get_dates d) with
  | None => None
  | Some v => Some (v # unitfactor u)
  end.

(* timeutils.py:123-128  wrapdate *)
Definition wrapdate (c : cal) (startdate : pdate) (u : unit) (allfields : bool) (d : pdate)
  : option pdate :=
  match date_as_val c startdate u d with
  | None => None
  | Some v => val_as_date c startdate u allfields v
  end.

(* timeutils.py:132-138  date_diff *)
Definition date_diff (c : cal) (u : unit) (d1 d2 : pdate) : option Q := date_as_val c d1 u d2.

(* timeaxis.py:464-467  days_in_month (Yearless overrides it with an exception, 1042-1046) *)
Definition days_in_month (c : cal) (yr mn : Z) : option Q :=
  match c with
  | Yearless => None
  | _ => date_as_val c (mkpdate (Some yr) (Some mn) None None None None) Days
                     (mkpdate (Some yr) (Some (mn + 1)) None None None None)
  end.

(* timeaxis.py:455-460  _getdoy: the 'year' field is removed from the date and
   the reference is {'month':1,'day':0,...}; result in days (exact rational) *)
Definition getdoy (c : cal) (d : pdate) : option Q :=
  date_as_val c (mkpdate None (Some 1) (Some 0) (Some 0) (Some 0) (Some 0)) Days
    (mkpdate None (pmonth d) (pday d) (phour d) (pminute d) (psecond d)).
