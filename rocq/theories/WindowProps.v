(** C33 (lagged variables), C40 (composites) and C41 (flattening). *)
From Coq Require Import ZArith List Bool Lia QArith_base Qreduction.
From Verif Require Import CalModel CalSpec TimeSearchModel SortSpec IndexModel IndexSpec IndexProofs ArrModel ArrProofs ViewModel ViewSpec ViewProofs ViewProps ChunkProofs EnvExample
     AxisModel AxisSpec AxisProofs VarOpsModel VarOpsSpec VarOpsProofs ReduceModel ReduceSpec ReduceProps LoopProofs RespondProofs ArgProofs UfuncView NumModel
     StencilModel StencilSpec StencilProofs DiffProofs IntgrProofs StencilProps ConcatModel ConcatProofs ConcatVar WindowModel WindowSpec WindowProofs LagProofs CompositeProofs FlattenProofs.
Import ListNotations.
Open Scope Z_scope.

(** *** C33 *)
(** lag(var, time, lags, reverse): after the time axis there is one more axis, with one element for each lag (in the
    opposite order if reverse), whose value is the lag times the first time step (negated if reverse), rounded to seconds.
    At the time with index i and the lag l there is the value at the index i + l, or NaN if there is none. *)
Theorem C33_lag : forall env, env_ok env -> forall (junk : list Z -> num) lag_class (x : var axis num) D d t v0 v1 vs lags (reverse : bool),
  responds env x D -> nth_error (var_axes x) d = Some (Time t) -> t_vals t = v0 :: v1 :: vs ->
  (forall b, In b (var_axes x) -> apart lag_class b) ->
  let delt := (if reverse then - (v1 - v0) else v1 - v0)%Q in
  let used := if reverse then rev lags else lags in
  exists y s E, lag_var env junk lag_class x d lags reverse = Some y /\
    var_axes y = insert_at (var_axes x) (S d) (Time s) /\
    t_class s = lag_class /\ t_cal s = Yearless /\ t_units s = t_units t /\
    Forall2 (fun l w => nearly (t_units t) (delt * inject_Z l) w) used (t_vals s) /\
    computes env y E /\
    forall before i k after l, length before = d -> elem used k l ->
      E (before ++ i :: k :: after) = if (0 <=? i + l) && (i + l <? axis_len (Time t)) then D (before ++ (i + l) :: after) else NaN.
Proof.
  intros env Henv junk lag_class x D d t v0 v1 vs lags reverse Hx Ha Hv Hun delt used.
  destruct (lag_spec env Henv junk lag_class x D d t v0 v1 vs lags reverse Hx Ha Hv) as (y & s & H1 & H2 & H3 & H4 & H5 & H6 & H7 & H8 & H9).
  { intros s b Hs Hb. apply (Hun b Hb (Time s)); [exact Hs|trivial]. }
  exists y, s, (lagged D d (axis_len (Time t)) used). repeat (split; [assumption|]). split; [now apply computed|].
  intros before i k after l Hb Hk. unfold lagged. destruct (nth_split2 before after i k d 0 Hb) as [-> ->]. apply znth_elem in Hk. rewrite Hk.
  cbv zeta. rewrite remove_split, set_split by exact Hb. reflexivity.
Qed.
Print Assumptions C33_lag.

(** a time axis with less than two times is refused *)
Theorem C33_too_short : forall env junk lag_class (x : var axis num) d t lags reverse,
  nth_error (var_axes x) d = Some (Time t) -> (length (t_vals t) < 2)%nat -> lag_var env junk lag_class x d lags reverse = None.
Proof.
  intros env junk lag_class x d t lags reverse Ha Ht. unfold lag_var. rewrite Ha. cbn [bind]. destruct (t_vals t) as [|v0 [|v1 vs]]; [reflexivity|reflexivity|cbn in Ht; lia].
Qed.
Print Assumptions C33_too_short.

(** six-hourly data at three times *)
Definition hours3 : taxis :=
  MkTime [3; 5] Std (mkpdate (Some 2000) (Some 1) (Some 1) (Some 0) (Some 0) (Some 0)) Hours (mkmask true true true true true true)
    [mkdate 2000 1 1 0 0 0; mkdate 2000 1 1 6 0 0; mkdate 2000 1 1 12 0 0] [0; 6; 12]%Q.
Definition series (q : list Z) : num := num_of_Z (10 * nth 0 q 0 + nth 1 q 0 + 1).
Definition record : var axis num := source [Time hours3; lat2] series.
Ltac two_axes := intros [|[|i]] [|[|j]] a b Ha Hb Hne; cbn in Ha, Hb; try (exfalso; apply Hne; reflexivity); try (destruct i; discriminate); try (destruct j; discriminate);
  injection Ha as <-; injection Hb as <-; vm_compute; auto.
Lemma record_responds : responds env0 record series.
Proof. apply source_responds. two_axes. Qed.
Definition lag_class : list Z := [3; 6; 1].
Lemma apart_lat2 cls : comparable cls [1] = false -> comparable [1] cls = false -> apart cls lat2.
Proof. intros H1 H2 [c|n|t] Hc Hk; cbn [axis_class] in Hc; subst; cbn [unrelated lat2 c_kind c_class axis_class]; try rewrite Hk; auto. Qed.
Lemma apart_hours3 cls : comparable cls [3; 5] = false -> class_eqb cls [3; 5] = false -> class_eqb [3; 5] cls = false -> apart cls (Time hours3).
Proof. intros H1 H2 H3 [c|n|t] Hc Hk; cbn [axis_class] in Hc; subst; cbn [unrelated hours3 t_class axis_class]; try rewrite Hk; auto. Qed.
Example C33_example :
  show (lag_var env0 zs lag_class record 0 [1; -2; 5] false) [[0; 1; 2]; [0; 1; 2]; [1]]
    [[0; 0; 0]; [1; 0; 0]; [2; 0; 0]; [0; 1; 0]; [1; 1; 0]; [2; 1; 0]; [2; 2; 0]]
    = Some ([3; 3; 1], [Some 12; Some 22; None; None; None; Some 2; None]%Q) /\
  option_map (fun y => match nth_error (var_axes y) 1 with Some (Time s) => map Qred (t_vals s) | _ => [] end) (lag_var env0 zs lag_class record 0 [1; -2; 5] true)
    = Some [-30; 12; -6]%Q.
Proof. split; vm_compute; reflexivity. Qed.
Example C33_used : exists y E, lag_var env0 zs lag_class record 0 [1; -2; 5] false = Some y /\ computes env0 y E /\
  E [0; 0; 1] = series [1; 1] /\ E [1; 1; 1] = NaN.
Proof.
  destruct (C33_lag env0 env0_ok zs lag_class record series 0%nat hours3 0%Q 6%Q [12%Q] [1; -2; 5] false) as (y & s & E & H1 & _ & _ & _ & _ & _ & H2 & H3).
  - exact record_responds.
  - reflexivity.
  - reflexivity.
  - intros b [<-|[<-|[]]]; [apply apart_hours3; reflexivity|apply apart_lat2; reflexivity].
  - exists y, E. split; [exact H1|]. split; [exact H2|]. split.
    + apply (H3 [] 0 0 [1] 1); [reflexivity|]. split; [lia|reflexivity].
    + apply (H3 [] 1 1 [1] (-2)); [reflexivity|]. split; [lia|reflexivity].
Qed.

(** *** C40 *)
(** composite(var, <axis selection>, evlen, evoff), for the events with the indices ievents: event e has the length el and the
    offset eo (the same for all events, or one for each).  The axis is replaced by one with the events, numbered from 1, and one
    with the offsets from - (largest eo) up (for a time axis, multiples of the smallest time step).  There are the data with the index ev + o, for the offsets o with - eo <= o < el - eo, and NaN
    for other offsets and outside of the record. *)
Theorem C40_windows : forall env, env_ok env -> forall (junk : list Z -> num) event_class offset_class yearless_class event_name offset_name indices_name
    (x : var axis num) D d a ievents evlen evoff lens offs first last,
  responds env x D -> nth_error (var_axes x) d = Some a ->
  amounts evlen (length ievents) lens -> amounts evoff (length ievents) offs ->
  largest first offs -> offsets_end evlen lens offs last -> - first <= last ->
  Forall (fun '(ev, el, eo) => readable (axis_len a) last ev el eo) (combine (combine ievents lens) offs) ->
  (forall b, In b (remove_at (var_axes x) d) -> apart event_class b /\ apart offset_class b /\ apart yearless_class b) ->
  siblings event_class offset_class -> siblings event_class yearless_class ->
  let offsets := arange (- first) last 1 in
  exists y events off E, composite_var env junk event_class offset_class yearless_class event_name offset_name indices_name x d ievents evlen evoff = Some y /\
    var_axes y = insert_at (set_at (var_axes x) d events) (S d) off /\
    (exists k, events = Coord k /\ c_class k = event_class /\ c_vals k = map inject_Z (arange 1 (zlen ievents + 1) 1) /\ c_aux k = [(indices_name, map inject_Z ievents)]) /\
    match a with
    | Time t => exists s dt, off = Time s /\ t_class s = yearless_class /\ t_cal s = Yearless /\ t_units s = t_units t /\ time_step (t_vals t) dt /\
                  Forall2 (fun o w => nearly (t_units t) (dt * inject_Z o) w) offsets (t_vals s)
    | _ => exists k, off = Coord k /\ c_class k = offset_class /\ c_vals k = map inject_Z offsets
    end /\
    axis_len off = last + first /\ computes env y E /\
    forall before e k after ev el eo o, length before = d ->
      nth_error ievents e = Some ev -> nth_error lens e = Some el -> nth_error offs e = Some eo -> elem offsets k o ->
      E (before ++ Z.of_nat e :: k :: after) =
        if (- eo <=? o) && (o <? el - eo) && (0 <=? ev + o) && (ev + o <? axis_len a) then D (before ++ (ev + o) :: after) else NaN.
Proof.
  intros env Henv junk event_class offset_class yearless_class event_name offset_name indices_name x D d a ievents evlen evoff lens offs first last
    Hx Ha Hlens Hoffs Hfirst Hlast Hfl Hread Hun [S1 S2] [S3 _] offsets.
  assert (forall z n, amounts z n lens -> True) as _ by trivial.
  assert (forall m n l, amounts m n l -> length l = n) as Hamt.
  { intros [z|l'] n l; cbn; [intros ->; apply repeat_length|intros [_ H]; exact H]. }
  pose proof (Hamt _ _ _ Hlens) as Hll. pose proof (Hamt _ _ _ Hoffs) as Hlo.
  assert (forall l m, largest m l -> zmax l = Some m) as Hzmax.
  { intros l m [K1 K2]. destruct (zmax_spec l) as (m' & -> & K3 & K4); [intros ->; destruct K1|]. f_equal. specialize (K2 m' K3). specialize (K4 m K1). lia. }
  assert (event_windows (length ievents) evlen evoff = Some (lens, offs, last + first, first)) as Hw.
  { unfold event_windows.
    assert ((match evoff with
            | One z => Some (repeat z (length ievents), z)
            | Each l => if Nat.eqb (length l) (length ievents) then bind (zmax l) (fun m => Some (l, m)) else None
            end) = Some (offs, first)) as ->.
    { destruct evoff as [z|l]; cbn in Hoffs.
      - subst offs. destruct Hfirst as [K1 _]. apply repeat_spec in K1. now subst.
      - destruct Hoffs as [-> K]. rewrite K, Nat.eqb_refl, (Hzmax l first Hfirst). reflexivity. }
    cbn [bind]. destruct evlen as [z|l]; cbn in Hlens, Hlast.
    - subst lens. destruct Hlast as (m & Hm & ->). assert (m = first) as -> by (pose proof (Hzmax _ _ Hm); pose proof (Hzmax _ _ Hfirst); congruence). repeat f_equal. lia.
    - destruct Hlens as [-> K]. rewrite K, Nat.eqb_refl.
      rewrite (Hzmax (map (fun '(el, eo) => el - eo + first) (combine l offs)) (last + first)); [reflexivity|].
      destruct Hlast as [K1 K2]. split.
      + apply in_map_iff in K1 as ([el eo] & <- & Hin). apply in_map_iff. exists (el, eo). split; [reflexivity|exact Hin].
      + intros v Hv. apply in_map_iff in Hv as ([el eo] & <- & Hin). assert (el - eo <= last); [|lia]. apply K2. apply in_map_iff. exists (el, eo). split; [reflexivity|exact Hin]. }
  destruct (composite_spec env Henv junk event_class offset_class yearless_class event_name offset_name indices_name x D d a ievents evlen evoff lens offs (last + first) first)
    as (y & eva & off & H1 & H2 & (ek & -> & E1 & E2 & E3 & E4) & H4 & H5 & H6 & H7); auto; [lia| | |].
  - replace (last + first - first) with last by lia. exact Hread.
  - intros b c Hb [(k & -> & K1 & [K2|K2])|(t & -> & K)]; destruct (Hun b Hb) as (U1 & U2 & U3).
    + destruct (U1 (Coord k)); [exact K2|exact K1|]. split; assumption.
    + destruct (U2 (Coord k)); [exact K2|exact K1|]. split; assumption.
    + destruct (U3 (Time t)); [exact K|trivial|]. split; assumption.
  - replace (last + first - first) with last in * by lia. eexists y, (Coord ek), off, _. split; [exact H1|]. split; [exact H2|]. split; [|split; [|split; [exact H6|split; [apply computed; [exact Henv|exact H7]|]]]].
    + exists ek. repeat (split; [first [reflexivity|assumption]|]). split; [|exact E4]. rewrite E3. unfold of_Zs. f_equal.
      apply list_ext. intros k z. rewrite elem_map. setoid_rewrite elem_arange1. split; [intros (w & [-> Hk] & ->); lia|]. intros [-> Hk]. exists k. lia.
    + destruct a as [c|c|t].
      * destruct H4 as (k & -> & _ & K2 & K3). exists k. auto.
      * destruct H4 as (k & -> & _ & K2 & K3). exists k. auto.
      * destruct H4 as (s & -> & K1 & K2 & K3 & _ & K4). exists s, (delta (t_vals t)). pose proof (delta_step (t_vals t)). auto 10.
    + cbv beta. intros before e k after ev el eo o Hb K1 K2 K3 Ho. apply elem_arange1 in Ho as [-> Hk].
      destruct (nth_split2 before after (Z.of_nat e) k d 0 Hb) as [N1 N2].
      assert (nth_error (combine (combine ievents lens) offs) e = Some (ev, el, eo)) as He by (now rewrite !nth_error_combine, K1, K2, K3).
      rewrite N1, Nat2Z.id, (nth_error_nth _ _ _ He).
      rewrite (clip_value junk D d first (axis_len a) _ (ev, el, eo) ev el eo last eq_refl); [|exact (proj1 (Forall_forall _ _) Hread _ (nth_error_In _ _ He))|lia].
      rewrite N2. replace (k - first) with (- first + k) by lia. rewrite remove_split, set_split by exact Hb. reflexivity.
Qed.
Print Assumptions C40_windows.

Lemma nth_error_repeat' {A} (z : A) n : forall e, (e < n)%nat -> nth_error (repeat z n) e = Some z.
Proof. induction n as [|n IH]; intros [|e] H; cbn; try lia; [reflexivity|]. apply IH. lia. Qed.
(** one length and one offset for all the events: it is enough that a window is not longer than the record *)
Theorem C40_one_window : forall env, env_ok env -> forall (junk : list Z -> num) event_class offset_class yearless_class event_name offset_name indices_name
    (x : var axis num) D d a ievents el eo,
  responds env x D -> nth_error (var_axes x) d = Some a -> ievents <> [] -> in_range (axis_len a) ievents -> 0 <= el <= axis_len a ->
  (forall b, In b (remove_at (var_axes x) d) -> apart event_class b /\ apart offset_class b /\ apart yearless_class b) ->
  siblings event_class offset_class -> siblings event_class yearless_class ->
  exists y events off E, composite_var env junk event_class offset_class yearless_class event_name offset_name indices_name x d ievents (One el) (One eo) = Some y /\
    var_axes y = insert_at (set_at (var_axes x) d events) (S d) off /\ axis_len events = zlen ievents /\ axis_len off = el /\
    computes env y E /\
    forall before e k after ev, length before = d -> nth_error ievents e = Some ev -> 0 <= k < el ->
      E (before ++ Z.of_nat e :: k :: after) =
        if (0 <=? ev - eo + k) && (ev - eo + k <? axis_len a) then D (before ++ (ev - eo + k) :: after) else NaN.
Proof.
  intros env Henv junk event_class offset_class yearless_class event_name offset_name indices_name x D d a ievents el eo Hx Ha Hne Hr Hel Hun S1 S2.
  assert (largest eo (repeat eo (length ievents))) as Hlg.
  { split; [destruct ievents; [congruence|now left]|]. intros z Hz. apply repeat_spec in Hz. lia. }
  destruct (C40_windows env Henv junk event_class offset_class yearless_class event_name offset_name indices_name x D d a ievents (One el) (One eo)
      (repeat el (length ievents)) (repeat eo (length ievents)) eo (el - eo)) as (y & events & off & E & H1 & H2 & H3 & H4 & Hlen & H5 & H6); auto; try reflexivity.
  - exists eo. split; [exact Hlg|reflexivity].
  - lia.
  - apply Forall_forall. intros [[ev el'] eo'] Hin. apply in_combine_l in Hin as Hin1. apply in_combine_r in Hin. apply repeat_spec in Hin. subst eo'.
    apply in_combine_l in Hin1 as Hin2. apply in_combine_r in Hin1. apply repeat_spec in Hin1. subst el'.
    pose proof (proj1 (Forall_forall _ _) Hr ev Hin2) as K. cbv beta in K. split; [exact K|]. lia.
  - exists y, events, off, E. split; [exact H1|]. split; [exact H2|]. split; [|split; [|split; [exact H5|]]].
    + destruct H3 as (k & -> & _ & K & _). unfold axis_len. rewrite K. change (zlen (c_vals k)) with (zlen (c_vals k)). unfold zlen at 1. rewrite map_length. change (zlen (arange 1 (zlen ievents + 1) 1) = zlen ievents). rewrite zlen_arange1; unfold zlen; lia.
    + lia.
    + intros before e k after ev Hb He Hk.
      assert (e < length ievents)%nat as Hlt by (apply nth_error_Some; congruence).
      assert (forall z : Z, nth_error (repeat z (length ievents)) e = Some z) as Hrep by (intros z; now apply nth_error_repeat').
      rewrite (H6 before e k after ev el eo (k - eo) Hb He (Hrep el) (Hrep eo)); [|apply elem_arange1; lia].
      replace (ev + (k - eo)) with (ev - eo + k) by lia.
      destruct (Z.leb_spec (- eo) (k - eo)), (Z.ltb_spec (k - eo) (el - eo)); try lia. reflexivity.
Qed.
Print Assumptions C40_one_window.

(** *** C40 examples *)
Definition ev_class : list Z := [8; 1].
Definition of_class : list Z := [8; 2].
Definition yl_class : list Z := [3; 6].
Definition comp := composite_var env0 zs ev_class of_class yl_class 70 71 72.
Definition line : var axis num := source [lon3] (fun q => num_of_Z (nth 0 q 0 + 1)).
Lemma line_responds : responds env0 line (fun q => num_of_Z (nth 0 q 0 + 1)).
Proof. apply source_responds, lon3_separate. Qed.
(** a window of two, starting one before each event: the first event lacks its first time *)
Example C40_example :
  show (comp record 0 [0; 2] (One 2) (One 1)) [[0; 1]; [0; 1]; [1]] [[0; 0; 0]; [0; 1; 0]; [1; 0; 0]; [1; 1; 0]] = Some ([2; 2; 1], [None; Some 2; Some 12; Some 22]%Q) /\
  show (comp line 0 [1; 2] (Each [1; 3]) (Each [0; 1])) [[1; 0]; [0; 1; 2]] [[0; 0]; [0; 1]; [0; 2]; [1; 0]; [1; 1]; [1; 2]] = Some ([2; 3], [Some 2; Some 3; None; None; Some 2; None]%Q).
Proof. split; vm_compute; reflexivity. Qed.
Example C40_used : exists y events off E, comp record 0 [0; 2] (One 2) (One 1) = Some y /\ var_axes y = [events; off; lat2] /\ axis_len off = 2 /\ computes env0 y E /\
  E [0; 0; 1] = NaN /\ E [1; 0; 1] = series [1; 1].
Proof.
  destruct (C40_one_window env0 env0_ok zs ev_class of_class yl_class 70 71 72 record series 0%nat (Time hours3) [0; 2] 2 1) as (y & events & off & E & H1 & H2 & H3 & H4 & H5 & H6).
  - exact record_responds.
  - reflexivity.
  - discriminate.
  - repeat constructor; cbn; lia.
  - cbn; lia.
  - intros b [<-|[]]. split; [|split]; apply apart_lat2; reflexivity.
  - split; reflexivity.
  - split; reflexivity.
  - exists y, events, off, E. split; [exact H1|]. split; [exact H2|]. split; [exact H4|]. split; [exact H5|]. split.
    + apply (H6 [] 0%nat 0 [1] 0); [reflexivity|reflexivity|lia].
    + apply (H6 [] 1%nat 0 [1] 2); [reflexivity|reflexivity|lia].
Qed.
Example C40_used_each : exists y E, comp line 0 [1; 2] (Each [1; 3]) (Each [0; 1]) = Some y /\ computes env0 y E /\ E [0; 1] = num_of_Z 2 /\ E [1; 2] = NaN.
Proof.
  destruct (C40_windows env0 env0_ok zs ev_class of_class yl_class 70 71 72 line (fun q => num_of_Z (nth 0 q 0 + 1)) 0%nat lon3 [1; 2] (Each [1; 3]) (Each [0; 1]) [1; 3] [0; 1] 1 2)
    as (y & events & off & E & H1 & _ & _ & _ & _ & H5 & H6).
  - exact line_responds.
  - reflexivity.
  - split; reflexivity.
  - split; reflexivity.
  - split; [right; now left|]. intros z [<-|[<-|[]]]; lia.
  - split; [right; now left|]. intros z [<-|[<-|[]]]; lia.
  - lia.
  - constructor; [|constructor; [|constructor]]; (split; [cbn; lia|]); left; lia.
  - intros b [].
  - split; reflexivity.
  - split; reflexivity.
  - exists y, E. split; [exact H1|]. split; [exact H5|]. split.
    + apply (H6 [] 0%nat 1 [] 1 1 0 0); try reflexivity. split; [lia|reflexivity].
    + apply (H6 [] 1%nat 2 [] 2 3 1 1); try reflexivity. split; [lia|reflexivity].
Qed.

(** Where the hypothesis of C40_windows fails: the window of the first event is cut off at the beginning of the record, and at the
    offset 0, which does not belong to its window (of length 1, starting at offset -1), there are data instead of NaN. *)
Theorem C40_clipped_refuted : exists (x : var axis num) D y r, responds env0 x D /\ map axis_len (var_axes x) = [3] /\
  comp x 0 [0; 2] (Each [1; 3]) (One 1) = Some y /\ map axis_vals (var_axes y) = [[1; 2]; [-1; 0; 1]]%Q /\
  var_get env0 zs y = Some r /\ number (val r [0; 1]) = Some 1%Q.
Proof.
  exists line, (fun q => num_of_Z (nth 0 q 0 + 1)).
  assert (match comp line 0 [0; 2] (Each [1; 3]) (One 1) with
          | Some y => option_map (fun r => (map axis_vals (var_axes y), number (val r [0; 1]))) (var_get env0 zs y) | None => None end
          = Some ([[1; 2]; [-1; 0; 1]]%Q, Some 1%Q)) as H by (vm_compute; reflexivity).
  destruct (comp line 0 [0; 2] (Each [1; 3]) (One 1)) as [y|]; [|discriminate]. destruct (var_get env0 zs y) as [r|] eqn:E; [|discriminate].
  cbn in H. injection H as H1 H2. exists y, r. split; [exact line_responds|]. split; [reflexivity|]. auto.
Qed.
Print Assumptions C40_clipped_refuted.
(** A window that is longer than the record and sticks out at both ends cannot be read at all. *)
Definition in_memory : var axis num := Var [lon3] (Values (Arr [3] (fun q => num_of_Z (nth 0 q 0 + 1)))).
Theorem C40_long_refuted : exists (x : var axis num) D y, responds env0 x D /\ map axis_len (var_axes x) = [3] /\
  comp x 0 [1] (One 5) (One 2) = Some y /\ var_get env0 zs y = None.
Proof.
  exists in_memory, (fun q => num_of_Z (nth 0 q 0 + 1)).
  assert (match comp in_memory 0 [1] (One 5) (One 2) with Some y => Some (option_map (fun r => number (val r [0; 1])) (var_get env0 zs y)) | None => None end = Some None) as H by (vm_compute; reflexivity).
  destruct (comp in_memory 0 [1] (One 5) (One 2)) as [y|]; [|discriminate]. exists y. split; [split; [exact lon3_separate|split; reflexivity]|]. split; [reflexivity|]. split; [reflexivity|].
  destruct (var_get env0 zs y) as [r|]; [discriminate|reflexivity].
Qed.
Print Assumptions C40_long_refuted.

(** *** C41 *)
Lemma elem_app_l {A} (l m : list A) i x : elem l i x -> elem (l ++ m) i x.
Proof. intros [H1 H2]. split; [exact H1|]. rewrite nth_error_app1; [exact H2|]. apply nth_error_Some. congruence. Qed.
Lemma elem_app_r {A} (l m : list A) i x : elem m i x -> elem (l ++ m) (zlen l + i) x.
Proof. intros [H1 H2]. unfold zlen. split; [lia|]. rewrite nth_error_app2 by lia. rewrite <- H2. f_equal. lia. Qed.
Lemma concat_elem {A} n (ls : list (list A)) : Forall (fun l => zlen l = n) ls ->
  zlen (List.concat ls) = zlen ls * n /\ forall o l i v, elem ls o l -> elem l i v -> elem (List.concat ls) (o * n + i) v.
Proof.
  intros H. induction H as [|l ls Hl Hls [IH1 IH2]]; [split; [reflexivity|]; intros o l i v [_ K]; destruct (Z.to_nat o); discriminate|].
  split.
  - cbn [List.concat]. unfold zlen in *. rewrite app_length. cbn [length]. lia.
  - intros o l' i v [H1 H2] Hi. cbn [List.concat]. destruct (Z.eqb_spec o 0) as [->|Ho].
    + injection H2 as ->. apply elem_app_l. exact Hi.
    + replace (o * n + i) with (zlen l + ((o - 1) * n + i)) by lia. apply elem_app_r. apply (IH2 (o - 1) l'); [|exact Hi]. split; [lia|].
      replace (Z.to_nat o) with (S (Z.to_nat (o - 1))) in H2 by lia. exact H2.
Qed.

(** flatten(var, inner): reading any part of the result whose indices along the flattened axis are those from f up to t - 1 (in any
    order, any number of times) gives at o * n + i what the source has at o, i, where n is the length of the inner axis.  The
    flattened axis is of the same kind as the outer one; at o * n + i it has the value o * n + the value of the inner axis at i. *)
Theorem C41_flatten : forall env, env_ok env -> forall V (junk : list Z -> V) class_name (x : var axis V) D d c ai,
  responds env x D -> nth_error (var_axes x) d = Some (Coord c) -> nth_error (var_axes x) (S d) = Some ai -> zlen (axis_vals ai) = axis_len ai ->
  let m := axis_len (Coord c) in let n := axis_len ai in
  exists y k, flatten_var env junk class_name x d None = Some y /\ var_axes y = set_at (remove_at (var_axes x) (S d)) d (Coord k) /\
    c_class k = c_class c /\ axis_len (Coord k) = m * n /\
    (forall o i v, 0 <= o < m -> elem (axis_vals ai) i v -> elem (c_vals k) (o * n + i) (inject_Z (o * n) + v)%Q) /\
    forall L f t, Forall2 choice (var_axes y) L -> (forall j, In j (nth d L []) <-> f <= j < t) ->
      exists r, ViewModel.get (axis_ops env) junk (view_of_inds (var_axes y) L) y true true = Some r /\ shape r = map zlen L /\
        forall p before o i after, position (map zlen L) p -> gather L p = before ++ (o * n + i) :: after -> length before = d -> 0 <= i < n ->
          val r p = D (before ++ o :: i :: after).
Proof.
  intros env Henv V junk class_name x D d c ai Hx Ho Hi Hv m n.
  destruct (flatten_axis env junk class_name x d c ai Ho Hi (proj1 Hx)) as (y & k & H1 & H2 & H3 & H4 & H5 & H6).
  destruct (concat_elem n (map (fun i => map (fun v => inject_Z (i * axis_len ai) + v)%Q (axis_vals ai)) (arange 0 m 1))) as [K1 K2].
  { apply Forall_forall. intros l Hl. apply in_map_iff in Hl as (o & <- & _). unfold zlen. rewrite map_length. exact Hv. }
  unfold m in K1, K2. rewrite <- H5 in K1, K2. fold m in K1, K2.
  assert (axis_len (Coord k) = m * n) as Hlen.
  { cbn [axis_len]. rewrite K1. unfold zlen at 1. rewrite map_length. change (zlen (arange 0 m 1) * n = m * n). rewrite zlen_arange1 by (apply axis_len_nonneg). lia. }
  exists y, k. repeat (split; [assumption|]). split.
  - intros o i v Hom Hiv. apply (K2 o (map (fun v => inject_Z (o * axis_len ai) + v)%Q (axis_vals ai))).
    + apply elem_map. exists o. split; [apply elem_arange1; lia|reflexivity].
    + apply elem_map. exists v. split; [exact Hiv|reflexivity].
  - intros L f t HL Hrun. destruct (flatten_any env Henv junk class_name x D d (Coord c) ai None (Coord k) y Hx Ho Hi H1 H2 Hlen H6 L f t HL Hrun) as (r & R1 & R2 & R3).
    exists r. split; [exact R1|]. split; [exact R2|]. intros p before o i after Hp Hg Hb Hin. rewrite (R3 p Hp). unfold unmerged. rewrite Hg.
    assert (nth d (before ++ o * n + i :: after) 0 = o * n + i) as -> by (rewrite app_nth2, Hb, Nat.sub_diag by lia; reflexivity).
    fold n. assert ((o * n + i) / n = o) as -> by (rewrite Z.div_add_l, (Z.div_small i n) by lia; lia).
    assert ((o * n + i) mod n = i) as -> by (rewrite Z.add_comm, Z_mod_plus_full; apply Z.mod_small; exact Hin).
    rewrite set_split, insert_split by exact Hb. reflexivity.
Qed.
Print Assumptions C41_flatten.
(** The whole of the result *)
Theorem C41_all : forall env, env_ok env -> forall V (junk : list Z -> V) class_name (x : var axis V) D d c ai,
  responds env x D -> nth_error (var_axes x) d = Some (Coord c) -> nth_error (var_axes x) (S d) = Some ai -> zlen (axis_vals ai) = axis_len ai ->
  Forall (fun a => 1 <= axis_len a) (var_axes x) ->
  let m := axis_len (Coord c) in let n := axis_len ai in
  exists y r, flatten_var env junk class_name x d None = Some y /\ var_get env junk y = Some r /\
    shape r = set_at (remove_at (map axis_len (var_axes x)) (S d)) d (m * n) /\
    forall before o i after, position (map axis_len (var_axes x)) (before ++ o :: i :: after) -> length before = d ->
      val r (before ++ (o * n + i) :: after) = D (before ++ o :: i :: after).
Proof.
  intros env Henv V junk class_name x D d c ai Hx Ho Hi Hv Hpos m n.
  destruct (C41_flatten env Henv V junk class_name x D d c ai Hx Ho Hi Hv) as (y & k & H1 & H2 & _ & H3 & _ & H4). fold m n in H3, H4.
  assert (1 <= m) as Hm by (apply (proj1 (Forall_forall _ _) Hpos (Coord c)), (nth_error_In _ _ Ho)).
  assert (1 <= n) as Hn by (apply (proj1 (Forall_forall _ _) Hpos ai), (nth_error_In _ _ Hi)).
  set (L := map (fun a => arange 0 (axis_len a) 1) (var_axes y)).
  assert (forall a, In a (var_axes y) -> 1 <= axis_len a) as Hall.
  { intros a Ha. rewrite H2 in Ha. apply In_nth_error in Ha as [j Hj]. assert (S d < length (var_axes x))%nat as Hd by (apply nth_error_Some; congruence).
    rewrite nth_error_set_at in Hj by (rewrite length_remove_at; lia). destruct (Nat.eqb d j).
    - injection Hj as <-. rewrite H3. nia.
    - rewrite nth_error_remove in Hj. apply (proj1 (Forall_forall _ _) Hpos a), (nth_error_In _ _ Hj). }
  assert (S d < length (var_axes x))%nat as Hd by (apply nth_error_Some; congruence).
  assert (d < length (remove_at (var_axes x) (S d)))%nat as Hdr by (rewrite length_remove_at; lia).
  assert (nth_error (var_axes y) d = Some (Coord k)) as Hk by (rewrite H2, nth_error_set_at, Nat.eqb_refl by exact Hdr; reflexivity).
  assert (Forall2 choice (var_axes y) L) as HL.
  { unfold L. clear - Hall. induction (var_axes y) as [|a l IH]; cbn [map]; constructor; [|apply IH; intros b Hb; apply Hall; now right].
    pose proof (Hall a (or_introl eq_refl)) as K. split; [apply in_range_arange; lia|]. apply increasing_various.
    - intros K'. pose proof (zlen_arange1 0 (axis_len a) ltac:(lia)) as K2. rewrite K' in K2. cbn in K2. lia.
    - intros i j u v Hu Hw Hij. apply elem_arange1 in Hu, Hw. lia. }
  destruct (H4 L 0 (m * n) HL) as (r & R1 & R2 & R3).
  { intros j. unfold L. rewrite (nth_error_nth _ _ _ (map_nth_error (fun a => arange 0 (axis_len a) 1) _ _ Hk)), H3. apply In_arange1. }
  assert (map zlen L = map axis_len (var_axes y)) as Hs.
  { unfold L. rewrite map_map. apply map_ext_in. intros a Ha. apply Hall in Ha. rewrite zlen_arange1; lia. }
  exists y, r. split; [exact H1|]. split; [unfold var_get; rewrite full_view_eq; exact R1|].
  assert (map axis_len (var_axes y) = set_at (remove_at (map axis_len (var_axes x)) (S d)) d (m * n)) as Hsh.
  { rewrite H2, StencilProofs.map_set_at, remove_at_map, H3. reflexivity. }
  split; [rewrite R2, Hs; exact Hsh|].
  intros before o i after Hp Hb.
  assert (position (map axis_len (var_axes y)) (before ++ o * n + i :: after)) as Hq.
  { rewrite Hsh. pose proof (position_at _ _ d m Hp ltac:(now rewrite nth_error_map, Ho)) as P1. pose proof (position_at _ _ (S d) n Hp ltac:(now rewrite nth_error_map, Hi)) as P2.
    destruct (nth_split2 before after o i d 0 Hb) as [N1 N2]. rewrite N1 in P1. rewrite N2 in P2.
    apply (position_remove _ _ (S d)) in Hp. rewrite remove_split in Hp by exact Hb.
    unfold position in *. rewrite <- (set_split before after o (o * n + i) d Hb). apply Forall2_set_both; [exact Hp|nia]. }
  apply (R3 (before ++ o * n + i :: after) before o i after); [rewrite Hs; exact Hq| |exact Hb|].
  - unfold L. apply (gather_axis_aranges (V:=V) junk). exact Hq.
  - pose proof (position_at _ _ (S d) n Hp ltac:(now rewrite nth_error_map, Hi)) as P2. destruct (nth_split2 before after o i d 0 Hb) as [N1 N2]. now rewrite N2 in P2.
Qed.
Print Assumptions C41_all.

Definition flat := flatten_var env0 zs (fun _ => 0).
Example C41_example :
  show (flat field 0 None) [[2; 3; 1]] [[0]; [1]; [2]] = Some ([3], [Some 3; Some 4; None]%Q) /\
  option_map (fun y => map axis_vals (var_axes y)) (flat field 0 None) = Some [[0; 5; 7; 3; 8; 10]]%Q.
Proof. split; vm_compute; reflexivity. Qed.
Example C41_used : exists y r, flat field 0 None = Some y /\ var_get env0 zs y = Some r /\ shape r = [6] /\ val r [1 * 3 + 2] = obs [1; 2].
Proof.
  destruct (C41_all env0 env0_ok num zs (fun _ => 0) field obs 0%nat (match lat2 with Coord c => c | _ => MkCoord Plain [] 0 [] [] [] 0%Q end) lon3) as (y & r & H1 & H2 & H3 & H4).
  - exact field_responds.
  - reflexivity.
  - reflexivity.
  - reflexivity.
  - constructor; [cbn; lia|constructor; [cbn; lia|constructor]].
  - exists y, r. split; [exact H1|]. split; [exact H2|]. split; [exact H3|].
    apply (H4 [] 1 2 []); [|reflexivity]. constructor; [cbn; lia|constructor; [cbn; lia|constructor]].
Qed.
(** Indices that do not form a run cannot be read: there is an error if they are increasing, and otherwise other elements are
    returned than were asked for: here those with the indices 1 and 0, instead of 2 and 0. *)
Theorem C41_steps_refuted : exists (x : var axis num) D y r, responds env0 x D /\ map axis_len (var_axes x) = [2; 3] /\ flat x 0 None = Some y /\
  ViewModel.get (axis_ops env0) zs (view_of_inds (var_axes y) [[0; 2]]) y true true = None /\
  ViewModel.get (axis_ops env0) zs (view_of_inds (var_axes y) [[2; 0]]) y true true = Some r /\ shape r = [2] /\
  number (val r [0]) = number (D [0; 1]) /\ number (val r [0]) <> number (D [0; 2]).
Proof.
  exists ramps, ramp.
  assert (match flat ramps 0 None with
          | Some y => match ViewModel.get (axis_ops env0) zs (view_of_inds (var_axes y) [[0; 2]]) y true true with
                      | None => option_map (fun r => (shape r, number (val r [0]))) (ViewModel.get (axis_ops env0) zs (view_of_inds (var_axes y) [[2; 0]]) y true true)
                      | _ => None end
          | None => None end = Some ([2], number (ramp [0; 1]))) as H by (vm_compute; reflexivity).
  destruct (flat ramps 0 None) as [y|]; [|discriminate].
  destruct (ViewModel.get (axis_ops env0) zs (view_of_inds (var_axes y) [[0; 2]]) y true true) as [|] eqn:E1; [discriminate|].
  destruct (ViewModel.get (axis_ops env0) zs (view_of_inds (var_axes y) [[2; 0]]) y true true) as [r|] eqn:E2; [|discriminate].
  exists y, r. split; [apply source_responds; exact (proj1 field_responds)|]. split; [reflexivity|]. split; [reflexivity|]. split; [exact E1|]. split; [exact E2|].
  cbn [option_map] in H. assert (shape r = [2]) as H1 by congruence. assert (number (val r [0]) = number (ramp [0; 1])) as H2 by congruence.
  split; [exact H1|]. split; [exact H2|]. rewrite H2. vm_compute. discriminate.
Qed.
Print Assumptions C41_steps_refuted.
