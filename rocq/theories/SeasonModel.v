(** Model of the seasonal time axes (/repo/pygeode/timeaxis.py:820-1008,
    makeSeasonalAxis), for Base = StandardTime or ModelTime365. *)
From Coq Require Import ZArith List Bool QArith_base.
From Verif Require Import CalModel.
Import ListNotations.
Open Scope Z_scope.

(* timeaxis.py:833  season_boundaries *)
Definition season_boundaries : list (Z * Z) := [(-30, 60); (60, 152); (152, 244); (244, 335)].

(* s[0] <= x < s[1] with x an exact rational number of days *)
Definition in_bounds (s : Z * Z) (x : Q) : bool :=
  Qle_bool (inject_Z (fst s)) x && negb (Qle_bool (inject_Z (snd s)) x).

(* timeaxis.py:857-861  the scalar loop over the season boundaries; [season]
   is unbound (None) until the first match *)
Fixpoint season_loop (i : Z) (bs : list (Z * Z)) (doy : Q) (year : Z) (season : option Z)
  : Z * option Z :=
  match bs with
  | [] => (year, season)
  | s :: bs' =>
    if in_bounds s (doy - 365) then season_loop (i + 1) bs' doy (year + 1) (Some (i + 1))
    else if in_bounds s doy then season_loop (i + 1) bs' doy year (Some (i + 1))
    else if in_bounds s (doy + 365) then season_loop (i + 1) bs' doy (year - 1) (Some (i + 1))
    else season_loop (i + 1) bs' doy year season
  end.

(* timeaxis.py:842-864  _get_seasons, one date.  The array branch (847-856)
   performs the same three tests per element. None: UnboundLocalError. *)
Definition get_seasons (base : cal) (d : pdate) : option (Z * Z) :=
  match getdoy base d with
  | None => None
  | Some doy =>
    match season_loop 0 season_boundaries doy (year (get_dates d)) None with
    | (y, Some s) => Some (y, s)
    | (_, None) => None
    end
  end.

(* timeaxis.py:834-836 and 866-894  _get_cdates: the central date of a season *)
Definition cdates_month : list Z := [1; 4; 7; 10].
Definition cdates_day : list Z := [16; 15; 16; 16].
Definition get_cdates (y season : Z) : date :=
  let y := y + (season - 1) / 4 in
  let season := (season - 1) mod 4 in
  mkdate (y + 0) (nth (Z.to_nat season) cdates_month 0) (nth (Z.to_nat season) cdates_day 0) 0 0 0.

(* timeaxis.py:979-988  SeasonalTime.val_as_date ; the start date
   is completed with all six fields at 905-910, so allfields makes no difference *)
Definition season_val_as_date (base : cal) (s : pdate) (u : unit) (q : Q) : option (Z * Z) :=
  match val_as_date base s u true q with
  | None => None
  | Some p => get_seasons base p
  end.

(* timeaxis.py:990-998  SeasonalTime.date_as_val for a (year, season) date *)
Definition season_date_as_val (base : cal) (s : pdate) (u : unit) (y season : Z) : option Q :=
  let d := get_cdates y season in
  date_as_val base s u (mkpdate (Some (year d)) (Some (month d)) (Some (day d))
                                (Some (hour d)) (Some (minute d)) (Some (second d))).
