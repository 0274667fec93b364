(** C53: the time axis that is made up for many files. *)
From Coq Require Import ZArith List Bool Lia ZifyBool QArith_base.
From Verif Require Import CalModel CalSpec CalProofs CalPyProofs TimeSearchModel IndexModel IndexSpec SortSpec AxisModel AxisSpec MultiFileModel MultiTimeModel MultiTimeSpec MultiTimeProofs CfProps.
Import ListNotations.
Open Scope Z_scope.
Notation zlen := IndexSpec.zlen.

(** When the files together hold dates that are evenly spaced, the dates of the axis that is made up are exactly those; only the first file, which holds the first
    of them, and the last file, which holds the last of them, are looked at, and at least one of these two holds more than one. *)
Theorem C53_even : forall c t1 t2 faxis dates s a b, complete t1 -> complete t2 -> t_cal t1 = c -> t_cal t2 = c -> t_units t1 = t_units t2 ->
  0 < s -> Forall (valid_date c) dates -> evenly c dates s ->
  dates = t_dates t1 ++ a -> dates = b ++ t_dates t2 -> t_dates t1 <> [] -> t_dates t2 <> [] -> (1 < length (t_dates t1) \/ 1 < length (t_dates t2))%nat ->
  exists T, multi_times faxis t1 t2 = Some T /\ t_dates T = dates /\ t_class T = t_class t1 /\ t_start T = t_start t1 /\ t_units T = t_units t1 /\ complete T /\ t_cal T = c.
Proof.
  intros c t1 t2 faxis dates s a b C1 C2 K1 K2 Hu Hs Hv He E1 E2 N1 N2 Hm. apply (made c t1 t2 C1 C2 K1 K2 Hu dates s Hs Hv He a b E1 E2 N1 N2). unfold IndexSpec.zlen. lia.
Qed.
Print Assumptions C53_even.

(** When the first and the last file hold one time each, every file is taken to do so, at the same distance from the date in its name. *)
Theorem C53_single : forall c faxis t1 t2 times o d1, complete faxis -> complete t1 -> t_cal faxis = c -> t_cal t1 = c ->
  Forall (valid_date c) times -> Forall2 (fun d x => c_date_as_val c d x = Some o) (t_dates faxis) times ->
  t_dates t1 = [d1] -> length (t_dates t2) = 1%nat -> hd_error times = Some d1 -> hd_error (t_dates faxis) = Some (get_dates (t_start faxis)) ->
  exists T, multi_times faxis t1 t2 = Some T /\ t_dates T = times /\ t_class T = t_class faxis /\ t_start T = t_start faxis /\ t_units T = t_units faxis /\ complete T /\ t_cal T = c.
Proof. intros c faxis t1 t2 times o d1 Cf C1 Kf K1 Hv Ho. exact (made_single c faxis t1 t2 Cf C1 Kf K1 times o Hv Ho d1). Qed.
Print Assumptions C53_single.

(** *** cases *)
Definition at_hours (hs : list Z) : taxis :=
  MkTime [3; 5] Std (mkpdate (Some 2000) (Some 1) (Some 1) (Some 0) (Some 0) (Some 0)) Hours (mkmask true true true true true true)
    (map (fun h => mkdate 2000 1 (1 + h / 24) (h mod 24) 0 0) hs) (map (fun h => (3600 * h) # 3600) hs).
Definition in_days (hs : list Z) : taxis :=
  MkTime [3; 5] Std (mkpdate (Some 2000) (Some 1) (Some 1) (Some 0) (Some 0) (Some 0)) Days (mkmask true true true true true true)
    (map (fun h => mkdate 2000 1 (1 + h / 24) (h mod 24) 0 0) hs) (map (fun h => (3600 * h) # 86400) hs).
Ltac hours_complete := split; [reflexivity|]; split; [reflexivity|]; split; [vm_compute; split; discriminate|]; split; [apply std_dates; reflexivity|vm_compute; reflexivity].
Example C53_used : exists T, multi_times (in_days [0; 36]) (at_hours [0; 12; 24]) (at_hours [36; 48]) = Some T /\ t_dates T = t_dates (at_hours [0; 12; 24; 36; 48]).
Proof.
  destruct (C53_even Std (at_hours [0; 12; 24]) (at_hours [36; 48]) (in_days [0; 36]) (t_dates (at_hours [0; 12; 24; 36; 48])) 43200 (t_dates (at_hours [36; 48])) (t_dates (at_hours [0; 12; 24]))) as (T & H1 & H2 & _);
    [hours_complete|hours_complete|reflexivity|reflexivity|reflexivity|lia|apply std_dates; reflexivity| |reflexivity|reflexivity|discriminate|discriminate|left; cbn; lia|].
  - intros i a b. do 5 (destruct i as [|i]; [cbn; intros Ha Hb; first [discriminate Hb|injection Ha as <-; injection Hb as <-; vm_compute; reflexivity]|]). destruct i; discriminate.
  - exists T. split; [exact H1|exact H2].
Qed.
Example C53_single_used : exists T, multi_times (in_days [0; 24; 72]) (at_hours [6]) (at_hours [78]) = Some T /\ t_dates T = t_dates (at_hours [6; 30; 78]).
Proof.
  destruct (C53_single Std (in_days [0; 24; 72]) (at_hours [6]) (at_hours [78]) (t_dates (at_hours [6; 30; 78])) 21600 (mkdate 2000 1 1 6 0 0)) as (T & H1 & H2 & _);
    [hours_complete|hours_complete|reflexivity|reflexivity|apply std_dates; reflexivity|repeat constructor|reflexivity|reflexivity|reflexivity|reflexivity|].
  exists T. split; [exact H1|exact H2].
Qed.

(** The check that the last time is a whole number of steps after the first one compares a number of steps with a tenth of the length of a step (multifile.py:283):
    when the step is at least 5 units long nothing is ever refused, and the last time of the last file is not among the times that are made up. *)
Theorem C53_misaligned_refuted : exists faxis t1 t2 T, complete t1 /\ complete t2 /\ complete faxis /\ multi_times faxis t1 t2 = Some T /\
  (forall d, In d (t_dates t2) -> ~ In d (t_dates T)).
Proof.
  exists (in_days [0; 60]), (at_hours [0; 24]), (at_hours [60; 84]).
  assert (option_map t_dates (multi_times (in_days [0; 60]) (at_hours [0; 24]) (at_hours [60; 84])) = Some (t_dates (at_hours [0; 24; 48; 72; 96]))) as E by (vm_compute; reflexivity).
  destruct (multi_times (in_days [0; 60]) (at_hours [0; 24]) (at_hours [60; 84])) as [T|]; [|discriminate]. exists T. split; [hours_complete|]. split; [hours_complete|]. split; [hours_complete|]. split; [reflexivity|].
  injection E as E. intros d Hd Hi. rewrite E in Hi. vm_compute in Hd, Hi. intuition congruence.
Qed.
Print Assumptions C53_misaligned_refuted.
