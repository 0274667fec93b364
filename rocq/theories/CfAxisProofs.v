(** Axes other than time axes, written and read again. *)
From Coq Require Import ZArith List Bool QArith_base Ascii String Lia.
From Verif Require Import CalModel IndexModel ViewModel AxisModel ClimModel StencilModel CfModel CfAxisSpec CfSpec CfText CfProofs.
Import ListNotations.
Open Scope Z_scope.

Lemma unbroken_every s : unbroken s -> every (fun a => negb (code a =? 32)) s = true.
Proof.
  induction s as [|a s IH]; intros H; cbn [every]; [reflexivity|]. apply andb_true_iff. split.
  - apply negb_true_iff, Z.eqb_neq. intros E. apply (H 0%nat). cbn. f_equal.
    rewrite <- (ascii_N_embedding a). unfold code in E. replace (N_of_ascii a) with 32%N by lia. reflexivity.
  - apply IH. intros n. apply (H (S n)).
Qed.
Lemma every_unbroken_app a b : every (fun a => negb (code a =? 32)) a = true -> every (fun a => negb (code a =? 32)) b = true ->
  every (fun a => negb (code a =? 32)) (a ++ "_" ++ b) = true.
Proof. intros A B. rewrite every_app, A. exact B. Qed.
Lemma split_word s : every (fun a => negb (code a =? 32)) s = true -> split s = [s].
Proof. induction s as [|a s IH]; cbn [every split]; auto. rewrite andb_true_iff, negb_true_iff. intros [A B]. rewrite A, IH by auto. reflexivity. Qed.
Lemma split_words s t : every (fun a => negb (code a =? 32)) s = true -> split (s ++ String " " t) = s :: split t.
Proof.
  induction s as [|a s IH]; cbn [every]; [reflexivity|]. rewrite andb_true_iff, negb_true_iff. intros [A B]. cbn [append split]. rewrite A, IH by auto. reflexivity.
Qed.
Lemma split_join l : l <> [] -> Forall (fun s => every (fun a => negb (code a =? 32)) s = true) l -> split (join l) = l.
Proof.
  induction l as [|s l IH]; [congruence|]. intros _ H. inversion H as [|? ? H1 H2]; subst. unfold join in *. cbn [String.concat].
  destruct l as [|t l]; [apply split_word, H1|]. cbn [append]. rewrite split_words by auto. f_equal. apply IH; [discriminate|auto].
Qed.
Lemma strip_app p s : strip p (p ++ s) = Some s.
Proof. induction p as [|a p IH]; cbn; auto. rewrite Ascii.eqb_refl. auto. Qed.
Lemma strip_aux name n : strip (name ++ "_") (name ++ "_" ++ n) = Some n.
Proof. replace (name ++ "_" ++ n)%string with ((name ++ "_") ++ n)%string by (rewrite app_assoc'; reflexivity). apply strip_app. Qed.

Lemma put_new {A} k (v : A) d : ~ In k (map fst d) -> put k v d = d ++ [(k, v)].
Proof.
  induction d as [|[x w] d IH]; cbn [map fst In put app]; auto. intros H. destruct (String.eqb k x) eqn:E; [apply String.eqb_eq in E; subst; tauto|].
  rewrite IH by tauto. reflexivity.
Qed.
Lemma gather_id l : NoDup (map fst l) -> gather_aux l = l.
Proof.
  unfold gather_aux. change l with ([] ++ l) at 1 3. generalize (@nil (string * list Q)) as d. induction l as [|[n v] l IH]; intros d; cbn [fold_left]; [rewrite app_nil_r; auto|].
  intros H. rewrite map_app in H. cbn [map fst] in H. assert (N := NoDup_remove_2 _ _ _ H). rewrite in_app_iff in N.
  rewrite put_new by tauto. rewrite IH; [rewrite <- app_assoc; reflexivity|]. rewrite map_app, map_app. cbn [map fst]. rewrite <- app_assoc. exact H.
Qed.
Lemma lookup_In {A} k (d : list (string * A)) v : NoDup (map fst d) -> In (k, v) d -> lookup k d = Some v.
Proof.
  induction d as [|[x w] d IH]; cbn [In map fst lookup]; [tauto|]. intros N [E|H].
  - injection E as -> ->. rewrite String.eqb_refl. reflexivity.
  - inversion N as [|? ? N1 N2]; subst. destruct (String.eqb k x) eqn:E; auto. apply String.eqb_eq in E. subst. exfalso. apply N1. apply in_map_iff. exists (x, v). auto.
Qed.
Lemma lookup_miss {A} k (d : list (string * A)) : ~ In k (map fst d) -> lookup k d = None.
Proof. induction d as [|[x w] d IH]; cbn [In map fst lookup]; auto. intros N. destruct (String.eqb k x) eqn:E; [apply String.eqb_eq in E; subst; tauto|]. apply IH. tauto. Qed.
Lemma lookup_app {A} k (d e : list (string * A)) : ~ In k (map fst d) -> lookup k (d ++ e) = lookup k e.
Proof. induction d as [|[x w] d IH]; cbn [In map fst lookup app]; auto. intros N. destruct (String.eqb k x) eqn:E; [apply String.eqb_eq in E; subst; tauto|]. apply IH. tauto. Qed.

Definition prefixed (name : string) (aux : list (string * list Q)) : extras := map (fun '(n, v) => ((name ++ "_" ++ n)%string, v)) aux.
Lemma prefixed_names name aux : map fst (prefixed name aux) = map (fun n => (name ++ "_" ++ n)%string) (map fst aux).
Proof. unfold prefixed. rewrite !map_map. apply map_ext. intros [n v]. reflexivity. Qed.
Lemma append_inj p a b : (p ++ a)%string = (p ++ b)%string -> a = b.
Proof. induction p as [|c p IH]; cbn; [auto|]. intros [= H]. auto. Qed.
Lemma prefixed_NoDup name aux : NoDup (map fst aux) -> NoDup (map fst (prefixed name aux)).
Proof.
  intros H. rewrite prefixed_names. induction (map fst aux) as [|n l IH]; cbn [map]; constructor.
  - inversion H as [|? ? H1 H2]; subst. intros X. apply in_map_iff in X. destruct X as (m & E & Hm). apply append_inj in E. cbn in E. injection E as ->. auto.
  - inversion H; auto.
Qed.
Lemma sequence_map_Some {A B} (f : A -> option B) g l : (forall x, In x l -> f x = Some (g x)) -> sequence (map f l) = Some (map g l).
Proof. induction l as [|x l IH]; cbn; auto. intros H. rewrite (H x) by auto. rewrite IH by auto. reflexivity. Qed.

(** the arrays are found again *)
Lemma aux_back others a aux rest : storable others a aux -> (forall n, In n (map fst rest) -> In n others) -> aux <> [] ->
  take_aux (x_name a) (rest ++ prefixed (x_name a) aux) (join (map fst (prefixed (x_name a) aux))) = Some aux /\
  split (join (map fst (prefixed (x_name a) aux))) = map fst (prefixed (x_name a) aux).
Proof.
  intros [Nm W D F _] R Ne. set (name := x_name a) in *.
  assert (S : split (join (map fst (prefixed name aux))) = map fst (prefixed name aux)).
  { apply split_join. { destruct aux; [congruence|]. destruct p. discriminate. }
    rewrite prefixed_names. apply Forall_forall. intros s Hs. apply in_map_iff in Hs. destruct Hs as (n & <- & Hn).
    apply every_unbroken_app; apply unbroken_every; [auto|]. rewrite Forall_forall in W. auto. }
  split; [|exact S]. unfold take_aux. rewrite S.
  set (f := fun n => bind (lookup n (rest ++ prefixed name aux)) (fun v => Some (match strip (name ++ "_") n with Some m => m | None => n end, v))).
  unfold prefixed at 1. rewrite !map_map. rewrite (sequence_map_Some _ (fun x => x)); [rewrite map_id; reflexivity|].
  intros [n v] H. cbn [fst]. unfold f. rewrite lookup_app.
  - rewrite (lookup_In (name ++ "_" ++ n) (prefixed name aux) v).
    + cbn [bind]. rewrite strip_aux. reflexivity.
    + apply prefixed_NoDup, D.
    + unfold prefixed. apply in_map_iff. exists (n, v). auto.
  - intros X. apply R in X. apply (F n); [|exact X]. apply in_map_iff. exists (n, v). auto.
Qed.

(** what is written, with the class of the axis in the attributes *)
Definition marked (k : kind) (atts : dict) : dict :=
  let atts := match k with
              | KLat => put "units" "degrees_north"%string (put "standard_name" "latitude"%string atts)
              | KLon => put "units" "degrees_east"%string (put "standard_name" "longitude"%string atts)
              | KPres => put "positive" "down"%string (put "units" "hPa"%string (put "standard_name" "air_pressure"%string atts))
              | KHybrid => put "standard_name" "atmosphere_hybrid_sigma_pressure_coordinate"%string atts
              | _ => atts
              end in
  let atts := if is_x k then put "axis" "X"%string atts else atts in
  let atts := if is_y k then put "axis" "Y"%string atts else atts in
  let atts := if is_z k then put "axis" "Z"%string atts else atts in
  if is_t k then put "axis" "T"%string atts else atts.
Definition written (name : string) (k : kind) (atts : dict) (aux : list (string * list Q)) : dict :=
  match prefixed name aux with [] => marked k atts | _ => put "ancillary_variables" (join (map fst (prefixed name aux))) (marked k atts) end.
Lemma encode_points others a k values aux : x_content a = Points k values aux -> storable others a aux ->
  encode_axis others a = Some (CAxis (x_name a) (written (x_name a) k (x_atts a) aux) (Points KNamed values []), prefixed (x_name a) aux).
Proof.
  intros Hc S. unfold encode_axis. rewrite Hc. fold (prefixed (x_name a) aux). fold (marked k (x_atts a)).
  replace (existsb (fun '(n, _) => existsb (String.eqb n) others) (prefixed (x_name a) aux)) with false; [reflexivity|].
  symmetry. apply not_true_is_false. intros X. apply existsb_exists in X. destruct X as ([n v] & H & X). apply existsb_exists in X.
  destruct X as (m & Hm & E). apply String.eqb_eq in E. subst m.
  assert (H' : In n (map fst (prefixed (x_name a) aux))) by (apply in_map_iff; exists (n, v); auto).
  rewrite prefixed_names in H'. apply in_map_iff in H'. destruct H' as (m & <- & Hm'). exact (st_free _ _ _ S m Hm' Hm).
Qed.

Lemma drop_put {A} k (v : A) d : drop k (put k v d) = drop k d.
Proof.
  induction d as [|[x w] d IH]; cbn [put drop filter].
  - rewrite String.eqb_refl. reflexivity.
  - destruct (String.eqb k x) eqn:E; cbn [drop filter]; rewrite E; cbn [negb]; [reflexivity|]. fold (drop k (put k v d)). rewrite IH. reflexivity.
Qed.
Lemma drop_absent {A} k (d : list (string * A)) : lookup k d = None -> drop k d = d.
Proof. induction d as [|[x w] d IH]; cbn [lookup drop filter]; auto. destruct (String.eqb k x); [discriminate|]. intros H. cbn [negb]. f_equal. apply IH, H. Qed.
Lemma marked_anc k atts : lookup "ancillary_variables" (marked k atts) = lookup "ancillary_variables" atts.
Proof. destruct k; unfold marked; cbn [is_x is_y is_z is_t]; looked; reflexivity. Qed.
Lemma written_drop name k atts aux : lookup "ancillary_variables" atts = None -> drop "ancillary_variables" (written name k atts aux) = marked k atts.
Proof.
  intros H. assert (X : drop "ancillary_variables" (marked k atts) = marked k atts) by (apply drop_absent; rewrite marked_anc; exact H).
  unfold written. destruct (prefixed name aux); [exact X|]. rewrite drop_put. exact X.
Qed.

(** reading the arrays *)
Lemma written_aux others a k aux rest : storable others a aux -> (forall n, In n (map fst rest) -> In n others) ->
  match lookup "ancillary_variables" (written (x_name a) k (x_atts a) aux) with
  | Some anc => bind (take_aux (x_name a) (rest ++ prefixed (x_name a) aux) anc) (fun l => Some (gather_aux l, split anc))
  | None => Some ([], [])
  end = Some (aux, map fst (prefixed (x_name a) aux)).
Proof.
  intros S R. unfold written. destruct aux as [|x aux].
  - cbn [prefixed map]. rewrite marked_anc, (st_atts _ _ _ S). reflexivity.
  - remember (x :: aux) as l. assert (Ne : l <> []) by (subst; discriminate).
    destruct (aux_back others a l rest S R Ne) as (A & B).
    assert (Np : prefixed (x_name a) l <> []) by (subst l; destruct x; discriminate).
    destruct (prefixed (x_name a) l) as [|p q] eqn:E; [congruence|]. rewrite <- E in *. rewrite lookup_put_same. rewrite A. cbn [bind]. rewrite B.
    rewrite gather_id by apply (st_distinct _ _ _ S). reflexivity.
Qed.

(** *** the class *)
Lemma lower_char_idem a : lower_char (lower_char a) = lower_char a.
Proof. destruct a as [[] [] [] [] [] [] [] []]; reflexivity. Qed.
Lemma lower_idem s : lower (lower s) = lower s.
Proof. induction s; cbn; [reflexivity|]. rewrite lower_char_idem. congruence. Qed.

(** the classes that are written down, and what becomes of the others *)
Definition restored (k : kind) : kind :=
  match k with
  | KLat => KLat | KLon => KLon | KPres => KPres | KHybrid => KHybrid
  | KX | KSpectralN => KX | KY | KSpectralM => KY | KZ | KHeight => KZ | KT => KT
  | _ => KNamed
  end.
Definition clear (k : kind) (a : caxis) (aux : list (string * list Q)) : Prop :=
  match k with
  | KLat => lookup "weights" aux <> None
  | KLon | KPres => True
  | KHybrid => lookup "A" aux <> None /\ lookup "B" aux <> None /\ contains " since " (units_of a) = false
  | KX | KSpectralN | KY | KSpectralM | KZ | KHeight | KT => neutral a
  | _ => neutral a /\ lookup "axis" (x_atts a) = None
  end.

Definition atts_read (k : kind) (d : dict) : dict :=
  let e := drop "units" (drop "axis" (marked k d)) in
  match k with
  | KPres => drop "positive" e
  | KHybrid => if starts_air "atmosphere_hybrid_sigma_pressure_coordinate" (dget "units" "" d) then drop "positive" e else e
  | KLat | KLon => e
  | _ => if String.eqb (dget "units" "" d) "" then e else put "units" (dget "units" "" d) e
  end.

Lemma eqb_not s l x : ~ In s l -> In x l -> String.eqb s x = false.
Proof. intros H1 H2. apply String.eqb_neq. intros ->. auto. Qed.

Lemma decode_points tcls cosines others a k values aux rest :
  storable others a aux -> (forall n, In n (map fst rest) -> In n others) -> clear k a aux ->
  decode_axis tcls cosines (rest ++ prefixed (x_name a) aux) (CAxis (x_name a) (written (x_name a) k (x_atts a) aux) (Points KNamed values [])) =
  Some (if kind_eqb (restored k) KNamed then CAxis (x_name a) (written (x_name a) k (x_atts a) aux) (Points KNamed values [])
        else CAxis (x_name a) (atts_read k (x_atts a)) (Points (restored k) values aux), map fst (prefixed (x_name a) aux)).
Proof.
  intros S R C. unfold decode_axis. cbn [x_content x_name x_atts].
  rewrite (written_aux others a k aux rest S R). cbn [bind]. rewrite (written_drop _ _ _ _ (st_atts _ _ _ S)).
  unfold dget.
  assert (Haxis : lookup "axis" (marked k (x_atts a)) = if is_x k then Some "X"%string else if is_y k then Some "Y"%string else if is_z k then Some "Z"%string else if is_t k then Some "T"%string else lookup "axis" (x_atts a)).
  { destruct k; unfold marked; cbn [is_x is_y is_z is_t]; looked; reflexivity. }
  assert (Hst : lookup "standard_name" (drop "axis" (marked k (x_atts a))) =
                match k with KLat => Some "latitude"%string | KLon => Some "longitude"%string | KPres => Some "air_pressure"%string
                           | KHybrid => Some "atmosphere_hybrid_sigma_pressure_coordinate"%string | _ => lookup "standard_name" (x_atts a) end).
  { destruct k; unfold marked; cbn [is_x is_y is_z is_t]; looked; reflexivity. }
  assert (Hln : lookup "long_name" (drop "axis" (marked k (x_atts a))) = lookup "long_name" (x_atts a)).
  { destruct k; unfold marked; cbn [is_x is_y is_z is_t]; looked; reflexivity. }
  assert (Hun : lookup "units" (drop "axis" (marked k (x_atts a))) =
                match k with KLat => Some "degrees_north"%string | KLon => Some "degrees_east"%string | KPres => Some "hPa"%string | _ => lookup "units" (x_atts a) end).
  { destruct k; unfold marked; cbn [is_x is_y is_z is_t]; looked; reflexivity. }
  rewrite Haxis, Hst, Hln, Hun. clear Haxis Hst Hln Hun.
  set (T := lower match lookup "standard_name" (x_atts a) with Some v => v | None => lower match lookup "long_name" (x_atts a) with Some v => v | None => x_name a end end).
  assert (ET : T = lower (title a)).
  { unfold T, title. destruct (lookup "standard_name" (x_atts a)); auto. destruct (lookup "long_name" (x_atts a)); apply lower_idem. }
  set (U := match lookup "units" (x_atts a) with Some v => v | None => ""%string end).
  assert (EU : U = units_of a) by reflexivity.
  unfold atts_read, dget. fold U.
  destruct k; cbn [clear] in C; cbn [is_x is_y is_z is_t restored].
  all: fold T; fold U.
  all: try (change (first_kind (Some "X"%string) KNamed) with KX). all: try (change (first_kind (Some "Y"%string) KNamed) with KY).
  all: try (change (first_kind (Some "Z"%string) KNamed) with KZ). all: try (change (first_kind (Some "T"%string) KNamed) with KT).
  Ltac neutrally N := destruct N as (N1 & N2 & N3);
    match goal with ET : ?t = lower (title _), EU : ?u = units_of _ |- _ =>
      rewrite <- ET in N1; rewrite <- EU in N2, N3; clearbody t u; unfold starts_air;
      rewrite (eqb_not t _ "latitude"%string N1) by (cbn; tauto); rewrite (eqb_not t _ "longitude"%string N1) by (cbn; tauto);
      rewrite (eqb_not t _ "air_pressure"%string N1) by (cbn; tauto); rewrite (eqb_not t _ "station"%string N1) by (cbn; tauto);
      rewrite (eqb_not t _ "atmosphere_hybrid_sigma_pressure_coordinate"%string N1) by (cbn; tauto);
      rewrite (eqb_not u _ "degrees_north"%string N2) by (cbn; tauto); rewrite (eqb_not u _ "degrees_east"%string N2) by (cbn; tauto);
      rewrite (eqb_not u _ "hPa"%string N2) by (cbn; tauto); rewrite (eqb_not u _ "mbar"%string N2) by (cbn; tauto);
      cbn [orb andb]; unfold since; rewrite N3, andb_false_r end.
  - destruct C as (N & A). rewrite A. cbn [first_kind]. neutrally N. reflexivity.
  - destruct C as (N & A). rewrite A. cbn [first_kind]. neutrally N. reflexivity.
  - destruct C as (N & A). rewrite A. cbn [first_kind]. neutrally N. reflexivity.
  - neutrally C. reflexivity.
  - neutrally C. reflexivity.
  - reflexivity.
  - change (since (lower "latitude") "degrees_north" _) with false. cbv iota beta.
    cbn -[marked]. destruct (lookup "weights" aux); [reflexivity|congruence].
  - neutrally C. reflexivity.
  - neutrally C. reflexivity.
  - neutrally C. reflexivity.
  - neutrally C. reflexivity.
  - destruct C as (A & B & D). change (lower "atmosphere_hybrid_sigma_pressure_coordinate") with "atmosphere_hybrid_sigma_pressure_coordinate"%string.
    change (String.eqb "atmosphere_hybrid_sigma_pressure_coordinate" "atmosphere_hybrid_sigma_pressure_coordinate") with true.
    change (String.eqb "atmosphere_hybrid_sigma_pressure_coordinate" "station") with false.
    destruct (lookup "A" aux); [|congruence]. destruct (lookup "B" aux); [|congruence]. cbn [andb].
    unfold since. rewrite EU, D, andb_false_r. reflexivity.
  - reflexivity.
  - neutrally C. reflexivity.
  - destruct C as (N & A). rewrite A. cbn [first_kind]. neutrally N. reflexivity.
  - destruct C as (N & A). rewrite A. cbn [first_kind]. neutrally N. reflexivity.
Qed.

Lemma marked_other k d j : ~ In j ["standard_name"; "units"; "positive"; "axis"]%string -> lookup j (marked k d) = lookup j d.
Proof.
  intros H. assert (E1 := eqb_not _ _ "standard_name"%string H ltac:(cbn; tauto)). assert (E2 := eqb_not _ _ "units"%string H ltac:(cbn; tauto)).
  assert (E3 := eqb_not _ _ "positive"%string H ltac:(cbn; tauto)). assert (E4 := eqb_not _ _ "axis"%string H ltac:(cbn; tauto)).
  destruct k; unfold marked; cbn [is_x is_y is_z is_t]; looked; reflexivity.
Qed.
Lemma atts_read_other k d j : ~ In j ["standard_name"; "units"; "positive"; "axis"]%string -> lookup j (atts_read k d) = lookup j d.
Proof.
  intros H. assert (E2 := eqb_not _ _ "units"%string H ltac:(cbn; tauto)).
  assert (E3 := eqb_not _ _ "positive"%string H ltac:(cbn; tauto)). assert (E4 := eqb_not _ _ "axis"%string H ltac:(cbn; tauto)).
  assert (M := marked_other k d j H). unfold atts_read.
  destruct k; repeat match goal with |- context [if ?b then _ else _] => destruct b end; looked; exact M.
Qed.
Lemma atts_read_units k d : match k with KLat | KLon | KPres | KHybrid => False | _ => True end -> dget "units" "" (atts_read k d) = dget "units" "" d.
Proof.
  intros H. unfold atts_read. destruct k; try destruct H; unfold dget at 1.
  all: match goal with |- context [if String.eqb ?u "" then _ else _] => destruct (String.eqb u "") eqn:E end.
  all: looked; try reflexivity; apply String.eqb_eq in E; auto.
Qed.
