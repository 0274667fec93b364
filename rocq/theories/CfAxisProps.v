(** C50: axes other than time axes, written with CF meta-data and read again. *)
From Coq Require Import ZArith List Bool QArith_base Ascii String Lia.
From Verif Require Import CalModel IndexModel ViewModel AxisModel StencilModel CfModel CfAxisSpec CfProofs CfAxisProofs.
Import ListNotations.
Open Scope Z_scope.

(** The axis [a] of a dataset, whose other variables have the names [others], is encoded, and [b] is what decoding makes of it; [used] are the
    variables that decoding takes out of the dataset again. *)
Definition round_trip (tcls : cal -> class) (cosines : list Q -> list Q) (others : list string) (rest : extras) (a b : caxis) (used : list string) : Prop :=
  exists e new, encode_axis others a = Some (e, new) /\ decode_axis tcls cosines (rest ++ new) e = Some (b, used) /\ used = map fst new.

(** Latitudes, longitudes, pressure levels and hybrid levels come back with their class, name, values and arrays, whatever their attributes say *)
Theorem C50_special_axes : forall tcls cosines others rest a k values aux,
  x_content a = Points k values aux -> storable others a aux -> (forall n, In n (map fst rest) -> In n others) ->
  (k = KLat /\ lookup "weights" aux <> None \/ k = KLon \/ k = KPres \/
   k = KHybrid /\ lookup "A" aux <> None /\ lookup "B" aux <> None /\ contains " since " (units_of a) = false) ->
  exists b used, round_trip tcls cosines others rest a b used /\ x_name b = x_name a /\ x_content b = Points k values aux /\
    forall j, ~ In j ["standard_name"; "units"; "positive"; "axis"]%string -> lookup j (x_atts b) = lookup j (x_atts a).
Proof.
  intros tcls cosines others rest a k values aux Hc S R K.
  assert (C : clear k a aux) by (destruct K as [(-> & H)|[->|[->|(-> & H)]]]; cbn; auto).
  assert (D := decode_points tcls cosines others a k values aux rest S R C).
  assert (E := encode_points others a k values aux Hc S).
  assert (Q : kind_eqb (restored k) KNamed = false /\ restored k = k) by (destruct K as [(-> & H)|[->|[->|(-> & H)]]]; auto).
  destruct Q as (Q1 & Q2). rewrite Q1, Q2 in D.
  eexists _, _. split; [eexists _, _; split; [exact E|split; [exact D|reflexivity]]|]. cbn [x_name x_content x_atts].
  split; [reflexivity|]. split; [reflexivity|]. apply atts_read_other.
Qed.
(** and so do generic X, Y, Z and T axes, with their units, unless their title or units point to a special kind of axis. *)
Theorem C50_generic_axes : forall tcls cosines others rest a k values aux,
  x_content a = Points k values aux -> storable others a aux -> (forall n, In n (map fst rest) -> In n others) ->
  In k [KX; KY; KZ; KT] -> neutral a ->
  exists b used, round_trip tcls cosines others rest a b used /\ x_name b = x_name a /\ x_content b = Points k values aux /\ units_of b = units_of a /\
    forall j, ~ In j ["standard_name"; "units"; "positive"; "axis"]%string -> lookup j (x_atts b) = lookup j (x_atts a).
Proof.
  intros tcls cosines others rest a k values aux Hc S R K N.
  assert (C : clear k a aux) by (destruct K as [<-|[<-|[<-|[<-|[]]]]]; cbn; auto).
  assert (D := decode_points tcls cosines others a k values aux rest S R C).
  assert (E := encode_points others a k values aux Hc S).
  assert (Q : kind_eqb (restored k) KNamed = false /\ restored k = k) by (destruct K as [<-|[<-|[<-|[<-|[]]]]]; auto).
  destruct Q as (Q1 & Q2). rewrite Q1, Q2 in D.
  eexists _, _. split; [eexists _, _; split; [exact E|split; [exact D|reflexivity]]|]. cbn [x_name x_content x_atts].
  split; [reflexivity|]. split; [reflexivity|]. split; [|apply atts_read_other].
  unfold units_of. cbn [x_atts]. apply (atts_read_units k). destruct K as [<-|[<-|[<-|[<-|[]]]]]; exact I.
Qed.
(** Axes known by their name only come back as they are, if they carry no further arrays. *)
Theorem C50_named_axes : forall tcls cosines others rest a values,
  x_content a = Points KNamed values [] -> storable others a [] -> (forall n, In n (map fst rest) -> In n others) ->
  neutral a -> lookup "axis" (x_atts a) = None -> round_trip tcls cosines others rest a a [].
Proof.
  intros tcls cosines others rest a values Hc S R N A.
  assert (D := decode_points tcls cosines others a KNamed values [] rest S R (conj N A)).
  assert (E := encode_points others a KNamed values [] Hc S).
  exists a, []. split; [|split; [|reflexivity]].
  - rewrite E. cbn [prefixed map]. destruct a as [n at0 c]. cbn in Hc. subst c. reflexivity.
  - cbn [restored kind_eqb] in D. change (written (x_name a) KNamed (x_atts a) []) with (x_atts a) in D. destruct a as [n at0 c]. cbn [x_name x_atts x_content] in *. subst c. exact D.
Qed.
(** In every case the name and the coordinates come back, and the class is the nearest that CF can tell: heights become generic vertical axes, spectral
    numbers X or Y axes; plain, dummy, frequency and index axes become named axes. *)
Theorem C50_nearest_class : forall tcls cosines others rest a k values aux,
  x_content a = Points k values aux -> storable others a aux -> (forall n, In n (map fst rest) -> In n others) ->
  neutral a -> lookup "axis" (x_atts a) = None -> (k = KLat -> lookup "weights" aux <> None) -> (k = KHybrid -> lookup "A" aux <> None /\ lookup "B" aux <> None) ->
  exists b used aux', round_trip tcls cosines others rest a b used /\ x_name b = x_name a /\
    x_content b = Points (match k with KHeight => KZ | KSpectralM => KY | KSpectralN => KX | KAxis | KDummy | KFreq | KIndex => KNamed | _ => k end) values aux' /\
    (~ In k [KAxis; KNamed; KDummy; KFreq; KIndex] -> aux' = aux).
Proof.
  intros tcls cosines others rest a k values aux Hc S R N A W H.
  assert (C : clear k a aux).
  { destruct k; cbn; auto. destruct (H eq_refl) as (H1 & H2). repeat split; auto. apply N. }
  assert (D := decode_points tcls cosines others a k values aux rest S R C).
  assert (E := encode_points others a k values aux Hc S).
  exists (if kind_eqb (restored k) KNamed then CAxis (x_name a) (written (x_name a) k (x_atts a) aux) (Points KNamed values [])
          else CAxis (x_name a) (atts_read k (x_atts a)) (Points (restored k) values aux)), (map fst (prefixed (x_name a) aux)),
         (if kind_eqb (restored k) KNamed then [] else aux).
  split; [eexists _, _; split; [exact E|split; [exact D|reflexivity]]|].
  split; [destruct (kind_eqb (restored k) KNamed); reflexivity|]. split; [destruct k; reflexivity|].
  intros M. destruct k; try reflexivity; exfalso; apply M; cbn; tauto.
Qed.

(** *** what is lost *)
Definition pc (c : cal) : class := match c with Std => [1; 1] | C365 => [1; 2] | C360 => [1; 3] | Yearless => [1; 4] end.
(** A named axis with an array of its own loses it: the variable is taken out of the dataset, but not attached to the axis. *)
Theorem C50_arrays_lost_refuted : exists a b used, storable [] a [("depth", [1; 2]%Q)]%string /\ neutral a /\
  x_content a = Points KNamed [0; 1]%Q [("depth", [1; 2]%Q)]%string /\ (forall tcls cosines, round_trip tcls cosines [] [] a b used) /\
  used = ["layer_depth"]%string /\ x_content b = Points KNamed [0; 1]%Q [].
Proof.
  exists (CAxis "layer" [] (Points KNamed [0; 1]%Q [("depth", [1; 2]%Q)]%string)). eexists _, _.
  split; [|split; [|split; [reflexivity|split]]].
  - constructor; cbn [x_name x_atts map fst]; try reflexivity.
    + intros _ n. do 6 (destruct n as [|n]; [discriminate|]). discriminate.
    + constructor; [|constructor]. intros n. do 6 (destruct n as [|n]; [discriminate|]). discriminate.
    + constructor; [intros []|constructor].
    + intros n _ [].
  - split; [|split]; vm_compute; [intros H|intros H|reflexivity]; repeat destruct H as [H|H]; try discriminate; exact H.
  - intros tcls cosines. eexists _, _. split; [vm_compute; reflexivity|]. split; vm_compute; reflexivity.
  - split; vm_compute; reflexivity.
Qed.
(** An axis whose name contains a blank, and that has arrays, cannot be read back. *)
Theorem C50_blank_refuted : exists a e new, x_content a = Points KLat [0; 1]%Q [("weights", [1; 1]%Q)]%string /\ x_name a = "model lat"%string /\
  encode_axis [] a = Some (e, new) /\ forall tcls cosines, decode_axis tcls cosines new e = None.
Proof.
  exists (CAxis "model lat" [] (Points KLat [0; 1]%Q [("weights", [1; 1]%Q)]%string)). eexists _, _. split; [reflexivity|]. split; [reflexivity|].
  split; [vm_compute; reflexivity|]. intros. vm_compute. reflexivity.
Qed.
(** The title of a generic axis can change its class: an axis called latitude becomes a latitude, and a vertical axis in millibars a pressure axis. *)
Theorem C50_title_refuted :
  (exists b used, (forall tcls cosines, round_trip tcls cosines [] [] (CAxis "Latitude" [] (Points KNamed [1; 2]%Q [])) (b cosines) used) /\
     forall cosines, x_content (b cosines) = Points KLat [1; 2]%Q [("weights"%string, cosines [1; 2]%Q)]) /\
  (exists b used, (forall tcls cosines, round_trip tcls cosines [] [] (CAxis "lev" [("units", "mbar")]%string (Points KZ [1; 2]%Q [])) b used) /\
     x_content b = Points KPres [1; 2]%Q []).
Proof.
  split.
  - exists (fun cosines => CAxis "Latitude" [] (Points KLat [1; 2]%Q [("weights"%string, cosines [1; 2]%Q)])), [].
    split; [|reflexivity]. intros tcls cosines. eexists _, _. split; [vm_compute; reflexivity|]. split; vm_compute; reflexivity.
  - exists (CAxis "lev" [] (Points KPres [1; 2]%Q [])), []. split; [|reflexivity]. intros tcls cosines. eexists _, _. split; [vm_compute; reflexivity|]. split; vm_compute; reflexivity.
Qed.

(** non-vacuity *)
Ltac words := let n := fresh in intros n; repeat (destruct n as [|n]; [discriminate|]); discriminate.
Example C50_example : let a := CAxis "eta" [("long_name", "model level"); ("note", "from the top")]%string (Points KHybrid [1; 2]%Q [("A", [0; 5]%Q); ("B", [1; 0]%Q)]%string) in
  storable ["T"; "U"]%string a [("A", [0; 5]%Q); ("B", [1; 0]%Q)]%string /\
  encode_axis ["T"; "U"]%string a =
    Some (CAxis "eta" [("long_name", "model level"); ("note", "from the top"); ("standard_name", "atmosphere_hybrid_sigma_pressure_coordinate"); ("axis", "Z"); ("ancillary_variables", "eta_A eta_B")]%string
           (Points KNamed [1; 2]%Q []), [("eta_A", [0; 5]%Q); ("eta_B", [1; 0]%Q)]%string) /\
  exists b used, round_trip pc (fun v => v) ["T"; "U"]%string [] a b used /\ x_content b = x_content a /\ lookup "note" (x_atts b) = Some "from the top"%string.
Proof.
  intros a.
  assert (S : storable ["T"; "U"]%string a [("A", [0; 5]%Q); ("B", [1; 0]%Q)]%string).
  { constructor; cbn [x_name x_atts map fst a]; try reflexivity.
    - intros _ n. do 5 (destruct n as [|n]; [discriminate|]). discriminate.
    - constructor; [|constructor; [|constructor]]; intros n; do 3 (destruct n as [|n]; [discriminate|]); discriminate.
    - constructor; [intros [H|[]]; discriminate H|]. constructor; [intros []|constructor].
    - intros n [<-|[<-|[]]] [H|[H|[]]]; discriminate H. }
  split; [exact S|]. split; [vm_compute; reflexivity|].
  destruct (C50_special_axes pc (fun v => v) ["T"; "U"]%string [] a KHybrid _ _ eq_refl S (fun n H => match H with end)) as (b & used & B & _ & C & L).
  { right. right. right. split; [reflexivity|]. split; [discriminate|]. split; [discriminate|reflexivity]. }
  exists b, used. split; [exact B|]. split; [exact C|]. rewrite L; [reflexivity|]. intros [H|[H|[H|[H|[]]]]]; discriminate H.
Qed.
Print Assumptions C50_nearest_class.
