(** Dates as text: numerals and names of months, with no reference to the code. *)
From Coq Require Import ZArith List Bool Ascii String.
From Verif Require Import CalModel CalSpec CfSpec.
Import ListNotations.
Open Scope Z_scope.

(** the names of the months 1 to 12 *)
Definition month_name (m : Z) (s : string) : Prop :=
  1 <= m /\ nth_error ["Jan"; "Feb"; "Mar"; "Apr"; "May"; "Jun"; "Jul"; "Aug"; "Sep"; "Oct"; "Nov"; "Dec"]%string (Z.to_nat (m - 1)) = Some s.
(** equal up to upper and lower case *)
Definition capital (a b : ascii) : Prop := (65 <= nat_of_ascii a <= 90)%nat /\ nat_of_ascii b = (nat_of_ascii a + 32)%nat.
Definition same_letter (a b : ascii) : Prop := a = b \/ capital a b \/ capital b a.
Definition same_letters (s t : string) : Prop := Forall2 same_letter (list_ascii_of_string s) (list_ascii_of_string t).
Definition names_month (s : string) (m : Z) : Prop := exists t, month_name m t /\ same_letters s t.

(** a day, a month and a year as text *)
Definition day_text (ds ms ys : string) (d m y : Z) : Prop := numeral ds d /\ (String.length ds <= 2)%nat /\ names_month ms m /\ numeral ys y.
(** hours and minutes as text *)
Definition clock_text (hs mis : string) (h mi : Z) : Prop := numeral hs h /\ (String.length hs <= 2)%nat /\ numeral mis mi /\ String.length mis = 2%nat.
(** the text does not begin with a digit *)
Definition no_digit_first (s : string) : Prop := forall n r t, numeral n r -> s <> (n ++ t)%string.
(** a character that counts as blank *)
Definition blank (a : ascii) : Prop := (9 <= nat_of_ascii a <= 13 \/ 28 <= nat_of_ascii a <= 32)%nat.
(** What stands before the date, and the time of day it gives: nothing; or anything that ends in hours and minutes and a blank, or in hours, minutes and seconds *)
Definition clock_before (front : string) (h mi s : option Z) : Prop :=
  front = EmptyString /\ h = None /\ mi = None /\ s = None \/
  exists f hs mis h' mi', clock_text hs mis h' mi' /\ h = Some h' /\ mi = Some mi' /\
   ((exists b, blank b /\ s = None /\ front = (f ++ hs ++ ":" ++ mis ++ String b "")%string) \/
    (exists ss s', numeral ss s' /\ String.length ss = 2%nat /\ s = Some s' /\ front = (f ++ hs ++ ":" ++ mis ++ ":" ++ ss)%string)).
