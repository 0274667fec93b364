(** Longitudes. *)
From Coq Require Import ZArith List QArith.
From Verif Require Import SortSpec IndexSpec AxisModel AxisSpec.
Open Scope Z_scope.

(** two numbers that stand for the same longitude *)
Definition same_meridian (x y : Q) : Prop := exists n : Z, (x == y + inject_Z (360 * n))%Q.
(** one turn, starting at the origin *)
Definition in_turn (origin x : Q) : Prop := (origin <= x /\ x < origin + 360)%Q.
(** longitudes that can be told apart after rotation *)
Definition distinct_meridians (origin : Q) (lons : list Q) : Prop :=
  forall j j' x x' u u', elem lons j x -> elem lons j' x' -> j <> j' -> same_meridian u x -> same_meridian u' x' -> in_turn origin u -> in_turn origin u' -> ~ np_close u u'.
