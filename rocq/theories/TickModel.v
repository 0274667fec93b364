(** Model of the tick generators for time axes: /repo/pygeode/timeticker.py.
    A generator belongs to a time axis of calendar [c], start date [s] and units [u]; values are exact rationals.
    SeasonTickGen, DayOfYearTickGen (empty in the code) and the drawing are left out. *)
From Coq Require Import ZArith List Bool QArith_base Qround.
From Verif Require Import CalModel StencilModel.
Import ListNotations.
Open Scope Z_scope.

Definition qgtb (a b : Q) : bool := negb (Qle_bool a b).
Definition qltb (a b : Q) : bool := negb (Qle_bool b a).
(** a date dictionary with some of the fields *)
Definition fields (y m d h mi sec : option Z) : pdate := mkpdate y m d h mi sec.
Definition with_year (p : pdate) (v : Z) := mkpdate (Some v) (pmonth p) (pday p) (phour p) (pminute p) (psecond p).
Definition with_month (p : pdate) (v : Z) := mkpdate (pyear p) (Some v) (pday p) (phour p) (pminute p) (psecond p).
Definition with_day (p : pdate) (v : Z) := mkpdate (pyear p) (pmonth p) (Some v) (phour p) (pminute p) (psecond p).
Definition with_hour (p : pdate) (v : Z) := mkpdate (pyear p) (pmonth p) (pday p) (Some v) (pminute p) (psecond p).
Definition with_minute (p : pdate) (v : Z) := mkpdate (pyear p) (pmonth p) (pday p) (phour p) (Some v) (psecond p).
Definition with_second (p : pdate) (v : Z) := mkpdate (pyear p) (pmonth p) (pday p) (phour p) (pminute p) (Some v).

Section Ticks.
Context (c : cal) (s : pdate) (u : unit).
Notation dav := (date_as_val c s u).
Notation vad := (val_as_date c s u true).
Notation wrap := (wrapdate c s u true).

(* timeticker.py:33-36  while v < vf: v = next_tick(v); yield v.  A tick is at least a second after the previous one (proved), which bounds the number of rounds. *)
Fixpoint tick_loop (fuel : nat) (next : Q -> option Q) (vf v : Q) : option (list Q) :=
  if qltb v vf then
    match fuel with O => None | S n => bind (next v) (fun w => option_map (cons w) (tick_loop n next vf w)) end
  else Some [].
(* timeticker.py:24-36  TickGenerator.ticks *)
Definition ticks (prior : Q -> option pdate) (next : Q -> option Q) (vmin vmax : Q) : option (list Q) :=
  bind (prior vmin) (fun d1 => bind (prior vmax) (fun d2 =>
  bind (dav d1) (fun v => bind (dav d2) (fun vf =>
  tick_loop (Z.to_nat (Qceiling ((vf - v) * inject_Z (Zpos (unitfactor u))))) next vf v)))).

(* timeticker.py:80-91  YearTickGen.get_tick_prior *)
Definition year_prior (mult : Z) (val : Q) : option pdate :=
  bind (vad val) (fun dt =>
  let yr := dflt (pyear dt) 1 in
  bind (dav (fields (Some yr) None None None None None)) (fun v0 =>
  let yr := if qgtb val v0 then yr + 1 else yr in
  Some (fields (Some ((yr - 1) / mult * mult)) None None None None None))).
(* timeticker.py:94-98  YearTickGen.next_tick *)
Definition year_next (mult : Z) (val : Q) : option Q := bind (vad val) (fun d => dav (with_year d (dflt (pyear d) 1 + mult))).
(* timeticker.py:101-107  YearTickGen.nticks *)
Definition year_nticks (mult : Z) (vmin vmax : Q) : option Q :=
  bind (year_prior mult vmin) (fun d1 => bind (year_prior mult vmax) (fun d2 =>
  Some (inject_Z (dflt (pyear d2) 1 - dflt (pyear d1) 1) / inject_Z mult)%Q)).

(* timeticker.py:118-139  MonthTickGen.get_tick_prior *)
Definition month_prior (mult : Z) (val : Q) : option pdate :=
  bind (vad val) (fun dt =>
  let yr := dflt (pyear dt) 1 in
  let mn := dflt (pmonth dt) 1 in
  bind (dav (fields (Some yr) (Some mn) None None None None)) (fun v0 =>
  bind (if qgtb val v0 then
          bind (wrap (fields (Some yr) (Some (mn + 1)) None None None None)) (fun dt => Some (dflt (pyear dt) 1, dflt (pmonth dt) 1))
        else Some (yr, mn)) (fun '(yr, mn) =>
  let mn := (mn - 2) / mult * mult + 1 in
  wrap (fields (Some yr) (Some mn) None None None None)))).
(* timeticker.py:142-146  MonthTickGen.next_tick *)
Definition month_next (mult : Z) (val : Q) : option Q := bind (vad val) (fun d => dav (with_month d (dflt (pmonth d) 1 + mult))).
(* timeticker.py:149-161  MonthTickGen.nticks *)
Definition month_nticks (mult : Z) (vmin vmax : Q) : option Q :=
  bind (month_prior mult vmin) (fun d1 => bind (month_prior mult vmax) (fun d2 =>
  let months := (12 * dflt (pyear d2) 1 + dflt (pmonth d2) 1) - (12 * dflt (pyear d1) 1 + dflt (pmonth d1) 1) in
  Some (inject_Z months / inject_Z mult)%Q)).

(* timeticker.py:219-246  DayOfMonthTickGen.get_tick_prior *)
Definition mday_prior (mult : Z) (val : Q) : option pdate :=
  bind (vad val) (fun dt =>
  let yr := dflt (pyear dt) 1 in let mn := dflt (pmonth dt) 1 in let dy := dflt (pday dt) 1 in
  bind (dav (fields (Some yr) (Some mn) (Some dy) None None None)) (fun v0 =>
  bind (if qgtb val v0 then
          bind (wrap (fields (Some yr) (Some mn) (Some (dy + 1)) None None None)) (fun dt => Some (dflt (pyear dt) 1, dflt (pmonth dt) 1, dflt (pday dt) 1))
        else Some (yr, mn, dy)) (fun '(yr, mn, dy) =>
  let dy := (dy - 2) / mult * mult + 1 in
  bind (wrap (fields (Some yr) (Some mn) (Some dy) None None None)) (fun d =>
  bind (wrap (fields (Some yr) (Some (mn + 1)) (Some 1) None None None)) (fun d1 =>
  bind (date_diff c Days d d1) (fun q => Some (if qltb q (inject_Z mult / 2) then d1 else d))))))).
(* timeticker.py:249-258  DayOfMonthTickGen.next_tick *)
Definition mday_next (mult : Z) (val : Q) : option Q :=
  bind (vad val) (fun d0 =>
  let d := with_day d0 (dflt (pday d0) 1 + mult) in
  let d1 := with_day (with_month d0 (dflt (pmonth d0) 1 + 1)) 1 in
  bind (date_diff c Days d d1) (fun q => if qltb q (inject_Z mult / 2) then dav d1 else dav d)).
(* timeticker.py:20-22  TickGenerator.nticks, which DayOfMonthTickGen inherits *)
Definition mday_nticks (mult : Z) (vmin vmax : Q) : option Q :=
  option_map (fun l => inject_Z (Z.of_nat (length l))) (ticks (mday_prior mult) (mday_next mult) vmin vmax).

(* timeticker.py:294-305  DayTickGen.get_tick_prior *)
Definition day_prior (mult : Z) (val : Q) : option pdate :=
  bind (vad val) (fun dt =>
  let d := dflt (pday dt) 1 in
  bind (dav (fields None None (Some d) None None None)) (fun v0 =>
  let d := if qgtb val v0 then d + 1 else d in
  Some (fields None None (Some ((d - 1) / mult * mult)) None None None))).
(* timeticker.py:308-312  DayTickGen.next_tick *)
Definition day_next (mult : Z) (val : Q) : option Q := bind (vad val) (fun d => dav (with_day d (dflt (pday d) 1 + mult))).
(* timeticker.py:315-321  DayTickGen.nticks *)
Definition day_nticks (mult : Z) (vmin vmax : Q) : option Q :=
  bind (day_prior mult vmin) (fun d1 => bind (day_prior mult vmax) (fun d2 =>
  Some (inject_Z (dflt (pday d2) 1 - dflt (pday d1) 1) / inject_Z mult + 1)%Q)).

(** HourTickGen, MinuteTickGen and SecondTickGen have the same text, up to the fields. *)
Inductive clock := CHour | CMinute | CSecond.
(* unpack: the field that is counted *)
Definition count_of (k : clock) (d : pdate) : Z :=
  match k with CHour => dflt (phour d) 0 | CMinute => dflt (pminute d) 0 | CSecond => dflt (psecond d) 0 end.
(* pack(..., v): the fields down to the one that is counted *)
Definition pack (k : clock) (d : pdate) (v : Z) : pdate :=
  let y := Some (dflt (pyear d) 1) in let m := Some (dflt (pmonth d) 1) in let dy := Some (dflt (pday d) 1) in
  match k with
  | CHour => fields y m dy (Some v) None None
  | CMinute => fields y m dy (Some (dflt (phour d) 0)) (Some v) None
  | CSecond => fields y m dy (Some (dflt (phour d) 0)) (Some (dflt (pminute d) 0)) (Some v)
  end.
(* pack(yr, mn, dy+1, 0); pack(yr, mn, dy, hr+1, 0); pack(yr, mn, dy, hr, mi+1, 0) *)
Definition pack_up (k : clock) (d : pdate) : pdate :=
  let y := Some (dflt (pyear d) 1) in let m := Some (dflt (pmonth d) 1) in let dy := dflt (pday d) 1 in
  match k with
  | CHour => fields y m (Some (dy + 1)) (Some 0) None None
  | CMinute => fields y m (Some dy) (Some (dflt (phour d) 0 + 1)) (Some 0) None
  | CSecond => fields y m (Some dy) (Some (dflt (phour d) 0)) (Some (dflt (pminute d) 0 + 1)) (Some 0)
  end.
Definition clock_unit (k : clock) : unit := match k with CHour => Hours | CMinute => Minutes | CSecond => Seconds end.
(* timeticker.py:346-371, 407-432, 470-495  get_tick_prior *)
Definition clock_prior (k : clock) (mult : Z) (val : Q) : option pdate :=
  bind (vad val) (fun dt =>
  bind (dav (pack k dt (count_of k dt))) (fun v0 =>
  bind (if qgtb val v0 then wrap (pack k dt (count_of k dt + 1)) else Some dt) (fun dt =>
  let n := (count_of k dt - 1) / mult * mult in
  bind (wrap (pack k dt n)) (fun d =>
  bind (wrap (pack_up k dt)) (fun d1 =>
  bind (date_diff c (clock_unit k) d d1) (fun q => Some (if qltb q (inject_Z mult / 2) then d1 else d))))))).
(* d['hour'] += mult and its kin; the smaller fields stay *)
Definition bump (k : clock) (d : pdate) (mult : Z) : pdate :=
  match k with
  | CHour => with_hour d (dflt (phour d) 0 + mult)
  | CMinute => with_minute d (dflt (pminute d) 0 + mult)
  | CSecond => with_second d (dflt (psecond d) 0 + mult)
  end.
(* d1['day'] += 1; d1['hour'] = 0 and its kin *)
Definition bump_up (k : clock) (d : pdate) : pdate :=
  match k with
  | CHour => with_hour (with_day d (dflt (pday d) 1 + 1)) 0
  | CMinute => with_minute (with_hour d (dflt (phour d) 0 + 1)) 0
  | CSecond => with_second (with_minute d (dflt (pminute d) 0 + 1)) 0
  end.
(* timeticker.py:374-383, 435-444, 498-507  next_tick *)
Definition clock_next (k : clock) (mult : Z) (val : Q) : option Q :=
  bind (vad val) (fun d0 =>
  let d := bump k d0 mult in
  let d1 := bump_up k d0 in
  bind (date_diff c (clock_unit k) d d1) (fun q => if qltb q (inject_Z mult / 2) then dav d1 else dav d)).
(* timeticker.py:335-343, 397-404, 459-467  nticks *)
Definition clock_nticks (k : clock) (mult : Z) (vmin vmax : Q) : option Q :=
  bind (clock_prior k mult vmin) (fun d1 => bind (clock_prior k mult vmax) (fun d2 =>
  bind (date_diff c (clock_unit k) d1 d2) (fun q => Some (q / inject_Z mult)%Q))).
End Ticks.

(* timeticker.py:39-70  TickGenerator.best_mult; [n i] is self.nticks(vmin, vmax, mults[i]), [len] is len(mults), i the previous choice.  Every round moves i in the same direction (proved), so that len rounds are enough. *)
Fixpoint best_loop (fuel : nat) (n : Z -> Q) (len : Z) (target : Q) (i : Z) (nt : Q) : option (Q * Z) :=
  match fuel with
  | O => None
  | S k =>
    if qgtb nt target && (i >? 0) then
      let nt2 := n (i - 1) in
      if Qle_bool (nt - target) (target - nt2) then Some (nt, i) else
      if Qle_bool nt2 target then Some (nt2, i - 1) else best_loop k n len target (i - 1) nt2
    else if qltb nt target && (i <? len - 1) then
      let nt2 := n (i + 1) in
      if qltb (target - nt) (nt2 - target) then Some (nt, i) else
      if qgtb nt2 target then Some (nt2, i + 1) else best_loop k n len target (i + 1) nt2
    else Some (nt, i)
  end.
Definition best_mult (n : Z -> Q) (len : Z) (target : Q) (i : Z) : option (Q * Z) := best_loop (Z.to_nat len) n len target i (n i).
