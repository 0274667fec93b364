(** C65: saving a dataset to a netCDF file and opening it again. *)
From Coq Require Import ZArith List Bool QArith_base String Ascii Lia.
From Verif Require Import SortSpec IndexModel IndexSpec ArrModel ViewModel ViewSpec AxisModel AxisSpec VarOpsModel VarOpsSpec UfuncModel StencilModel ReduceSpec EnvExample DatasetModel DatasetSpec DatasetProofs
  NcModel NcSpec NcProofs NcOpen.
Import ListNotations.
Open Scope Z_scope.
Open Scope list_scope.

(** what is saved comes back: the same variables in the same order, with the same names, axes, values of axes and data *)
Theorem C65_roundtrip : forall env (junk : list Z -> Q) enc MAX fill dim_class named_class next vars ds, env_ok env -> 1 <= MAX -> (forall s t, enc s = enc t -> s = t) ->
  storable env enc vars -> objects (axes_of vars) next -> make_dataset env junk enc next vars = Some ds ->
  exists f ds', save env junk enc MAX fill next ds = Some f /\ open_file env junk enc dim_class named_class f = Some ds' /\ Forall2 (same_variable env) vars (ds_vars ds').
Proof.
  intros env junk enc MAX fill dimc namedc next vars ds Henv HM Hinj Hst Hob Hds.
  destruct (save_spec env Henv junk enc Hinj MAX HM fill vars next Hst Hob ds Hds) as (f & kept & dims & Es & Hk & Hd & Ef & Hs). exists f.
  destruct (open_spec env Henv junk enc Hinj dimc namedc vars next kept dims f Hst Hob Hk Hd Ef Hs) as (ds' & Eo & H). exists ds'. auto.
Qed.
(** what the file contains: every variable and every axis with values of its own, under its name, on dimensions with the names of its axes *)
Theorem C65_file : forall env (junk : list Z -> Q) enc MAX fill next vars ds, env_ok env -> 1 <= MAX -> (forall s t, enc s = enc t -> s = t) ->
  storable env enc vars -> objects (axes_of vars) next -> make_dataset env junk enc next vars = Some ds ->
  exists f, save env junk enc MAX fill next ds = Some f /\
    (forall v, In v vars -> exists nv, In nv (f_vars f) /\ nc_name nv = v_name v /\ nc_dims nv = map a_name (v_axes v) /\
       forall D, responds env (var_of v) D -> forall q, position (map (fun a => axis_len (a_axis a)) (v_axes v)) q -> nc_data nv q = D q) /\
    (forall a, In a (axes_of vars) -> In (a_name a, axis_len (a_axis a)) (f_dims f)) /\
    (forall a, In a (axes_of vars) -> is_dummy a = false -> exists nv, In nv (f_vars f) /\ nc_name nv = a_name a /\ nc_dims nv = [a_name a] /\
       forall i, 0 <= i < axis_len (a_axis a) -> nc_data nv [i] = nth (Z.to_nat i) (axis_vals (a_axis a)) 0%Q) /\
    (forall nv, In nv (f_vars f) -> In (nc_name nv) (map v_name vars) \/ exists a, In a (axes_of vars) /\ is_dummy a = false /\ nc_name nv = a_name a) /\
    NoDup (map fst (f_dims f)) /\ NoDup (map nc_name (f_vars f)).
Proof.
  intros env junk enc MAX fill next vars ds Henv HM Hinj Hst Hob Hds.
  destruct (save_spec env Henv junk enc Hinj MAX HM fill vars next Hst Hob ds Hds) as (f & kept & dims & Es & Hk & Hd & Ef & Hs). exists f. split; [exact Es|]. split; [|split; [|split; [|split; [|split]]]].
  - intros v Hv. destruct (F2_In_l _ _ _ v Hs) as (nv & Hn & A & B & C); [apply in_app_iff; now left|]. exists nv. split; [exact Hn|]. split; [exact A|]. split; [exact B|]. intros D HD q Hq. apply (C D HD). unfold var_shape. cbn. now rewrite map_map.
  - intros a Ha. rewrite Ef. apply in_map_iff. exists a. split; [reflexivity|]. now apply Hd.
  - intros a Ha Da. destruct (F2_In_l _ _ _ (axis_var a) Hs) as (nv & Hn & A & B & C); [apply (axis_found vars kept Hk a Ha Da)|]. exists nv. split; [exact Hn|]. split; [exact A|]. split; [exact B|].
    intros i Hi. rewrite (C _ (axis_var_responds env a)); [reflexivity|]. constructor; [exact Hi | constructor].
  - intros nv Hn. destruct (F2_In_r _ _ _ nv Hs Hn) as (v & Hv & A & _). rewrite A. apply in_app_iff in Hv as [Hv|Hv]; [left; now apply in_map|]. right. apply in_map_iff in Hv as (a & <- & Ha). apply filter_In in Ha as [Ha Da]. exists a. split; [now apply Hk|]. split; [now apply negb_true_iff | reflexivity].
  - rewrite Ef, map_map. cbn [fst]. apply (NoDup_names dims); [apply Hd|]. intros a b Ha Hb E. destruct Hst as ((_ & _ & N) & _). apply N; [now apply Hd | now apply Hd | exact E].
  - replace (map nc_name (f_vars f)) with (map v_name (kept_vars vars kept)); [apply (kept_ok env enc vars next Hst Hob kept Hk)|]. clear -Hs. induction Hs as [|v nv l l' (A & _) Hs IH]; cbn [map]; [reflexivity|]. now rewrite IH, A.
Qed.

(** ** examples *)
Fixpoint code (s : string) : Z := match s with EmptyString => 0 | String c s => 1 + Z.of_nat (nat_of_ascii c) + 256 * code s end.
Lemma code_pos s : 0 <= code s.
Proof. induction s as [|c s IH]; cbn [code]; lia. Qed.
Lemma code_inj s : forall t, code s = code t -> s = t.
Proof.
  induction s as [|c s IH]; intros [|d t] E; cbn [code] in E; [reflexivity | pose proof (code_pos t); lia | pose proof (code_pos s); lia |].
  pose proof (nat_ascii_bounded c). pose proof (nat_ascii_bounded d). assert (C : nat_of_ascii c = nat_of_ascii d) by lia. assert (code s = code t) by lia.
  rewrite <- (ascii_nat_embedding c), <- (ascii_nat_embedding d), C. f_equal. now apply IH.
Qed.
Definition named_ax (i : Z) (n : string) (vals : list Q) : axobj := MkAx i n (Coord (MkCoord Named [3] (code n) vals [] [] (1 # 100000))).
Definition dummy_ax (i : Z) (n : string) (len : nat) : axobj := MkAx i n (Coord (MkCoord Dummy [4] (code n) (indices_q len) [] [] (1 # 100000))).
Definition lat_ax := named_ax 0 "lat" [10; 20; 30]%Q.
Definition rec_ax := dummy_ax 1 "rec" 2.
Definition temp : vobj Q := MkVar "temp" [rec_ax; lat_ax] (Values (Arr [2; 3] (fun p => inject_Z (10 * nth 0 p 0 + nth 1 p 0)))).
Definition topo : vobj Q := MkVar "topo" [lat_ax] (Values (Arr [3] (fun p => inject_Z (100 + nth 0 p 0)))).
Definition ex_vars := [temp; topo].
Definition save0 (vars : list (vobj Q)) := bind (make_dataset env0 (fun _ => 0%Q) code 100 vars) (save env0 (fun _ => 0%Q) code 2 0%Q 100).
Definition reopen0 (vars : list (vobj Q)) := bind (save0 vars) (open_file env0 (fun _ => 0%Q) code [4; 5] [3]).
Definition axis_seen (a : axobj) := (a_name a, is_dummy a, map Qnum (axis_vals (a_axis a))).
Definition seen (v : vobj Q) := (v_name v, map axis_seen (v_axes v), option_map (fun r => map (fun p => Qnum (val r p)) (product (map (fun n => arange 0 n 1) (shape r)))) (var_get env0 (fun _ => 0%Q) (var_of v))).
Definition ds_seen (ds : @dataset Q) := map seen (ds_vars ds).

Lemma temp_responds : responds env0 (var_of temp) (fun p => inject_Z (10 * nth 0 p 0 + nth 1 p 0)).
Proof.
  split; [|split; [reflexivity|reflexivity]]. intros [|[|i]] [|[|j]] a b Ha Hb Hne; cbn in Ha, Hb; try congruence; try (destruct i; discriminate); try (destruct j; discriminate); injection Ha as <-; injection Hb as <-; cbn; congruence.
Qed.
Lemma topo_responds : responds env0 (var_of topo) (fun p => inject_Z (100 + nth 0 p 0)).
Proof.
  split; [|split; [reflexivity|reflexivity]]. intros [|i] [|j] a b Ha Hb Hne; cbn in Ha, Hb; try congruence; try (destruct i; discriminate); try (destruct j; discriminate).
Qed.
Lemma separated_by (l : list Q) : (forall i j x y, (i < j)%nat -> nth_error l i = Some x -> nth_error l j = Some y -> ~ np_close x y /\ ~ np_close y x) -> separated l.
Proof.
  intros H i j x y [Hi0 Hi] [Hj0 Hj] Hne. destruct (Z_lt_le_dec i j) as [Hlt|Hlt].
  - eapply (proj1 (H (Z.to_nat i) (Z.to_nat j) x y ltac:(lia) Hi Hj)).
  - eapply (proj2 (H (Z.to_nat j) (Z.to_nat i) y x ltac:(lia) Hj Hi)).
Qed.
Example C65_storable : storable env0 code ex_vars /\ objects (axes_of ex_vars) 100.
Proof.
  assert (HA : forall a, In a (axes_of ex_vars) -> a = rec_ax \/ a = lat_ax) by (intros a H; cbn in H; intuition congruence).
  split; [split; [|split; [|split; [|split; [|split]]]]|split].
  - split; [repeat constructor; cbn; intuition discriminate|]. split; [cbn; intuition discriminate|]. intros a b Ha Hb E. destruct (HA a Ha) as [-> | ->], (HA b Hb) as [-> | ->]; vm_compute in E; first [reflexivity | discriminate E].
  - apply Forall_forall. intros a Ha. destruct (HA a Ha) as [-> | ->]; (split; [|eexists; split; [reflexivity|]; split; [discriminate|]; split; [reflexivity|]; split; [discriminate|reflexivity]]).
    + split; [|split; [constructor|discriminate]]. apply separated_by. intros [|[|[|i]]] [|[|[|j]]] x y Hij Hx Hy; try lia; cbn in Hx, Hy; try discriminate; try (destruct i; discriminate); try (destruct j; discriminate);
      injection Hx as <-; injection Hy as <-; split; cbv; intros K; now apply K.
    + split; [|split; [constructor|discriminate]]. apply separated_by. intros [|[|[|i]]] [|[|[|j]]] x y Hij Hx Hy; try lia; cbn in Hx, Hy; try discriminate; try (destruct i; discriminate); try (destruct j; discriminate);
      injection Hx as <-; injection Hy as <-; split; cbv; intros K; now apply K.
  - intros v [<-|[<-|[]]]; eexists; [exact temp_responds | exact topo_responds].
  - intros v a [<-|[<-|[]]] Ha; destruct (HA a Ha) as [-> | ->]; discriminate.
  - intros a b Ha Hb E. destruct (HA a Ha) as [-> | ->], (HA b Hb) as [-> | ->]; vm_compute in E; first [reflexivity | discriminate E].
  - intros a Ha. destruct (HA a Ha) as [-> | ->]; cbn; intuition discriminate.
  - intros a b Ha Hb E. destruct (HA a Ha) as [-> | ->], (HA b Hb) as [-> | ->]; vm_compute in E; first [reflexivity | discriminate E].
  - intros a Ha. destruct (HA a Ha) as [-> | ->]; reflexivity.
Qed.
Example C65_reopened : option_map ds_seen (reopen0 ex_vars) =
  Some [("temp", [("rec", true, [0; 1]); ("lat", false, [10; 20; 30])], Some [0; 1; 2; 10; 11; 12]); ("topo", [("lat", false, [10; 20; 30])], Some [100; 101; 102])]%string.
Proof. vm_compute. reflexivity. Qed.

(** ** what goes wrong *)
Definition x_ax := named_ax 0 "x" [10; 20]%Q.
Definition X_ax := named_ax 1 "X" [7; 8]%Q.
Definition cased : vobj Q := MkVar "v" [x_ax; X_ax] (Values (Arr [2; 2] (fun p => inject_Z (10 * nth 0 p 0 + nth 1 p 0)))).
(** names of axes that differ only in case: after opening the file the axes have other names and the values of one axis are on the other *)
Theorem C65_case_refuted : exists ds', reopen0 [cased] = Some ds' /\ ~ Forall2 (same_variable env0) [cased] (ds_vars ds') /\
  ds_seen ds' = [("v", [("X01", false, [7; 8]); ("X02", true, [0; 1])], Some [0; 1; 10; 11])]%string.
Proof.
  assert (E : option_map (fun ds => (ds_seen ds, map (fun v => map a_name (v_axes v)) (ds_vars ds))) (reopen0 [cased]) =
    Some ([("v", [("X01", false, [7; 8]); ("X02", true, [0; 1])], Some [0; 1; 10; 11])], [["X01"; "X02"]])%string) by (vm_compute; reflexivity).
  destruct (reopen0 [cased]) as [ds'|]; [|discriminate]. cbn [option_map] in E. injection E as E1 E2. exists ds'. split; [reflexivity|]. split; [|exact E1].
  intros H. inversion H as [|? w ? t (_ & HA & _) Ht E3 E4]. rewrite <- E4 in E2. inversion HA as [|a b ? ? (Hn & _) _ E5 E6]. cbn [map] in E2. rewrite <- E6 in E2. cbn [map] in E2. rewrite Hn in E2. discriminate.
Qed.
(** an axis called "axis": the file can be written but not opened *)
Definition any_ax := named_ax 1 "axis" [7; 8]%Q.
Definition misnamed : vobj Q := MkVar "v" [lat_ax; any_ax] (Values (Arr [3; 2] (fun p => inject_Z (10 * nth 0 p 0 + nth 1 p 0)))).
Theorem C65_reserved_refuted : save0 [misnamed] <> None /\ reopen0 [misnamed] = None.
Proof.
  split; [|vm_compute; reflexivity]. assert (E : match save0 [misnamed] with Some _ => true | None => false end = true) by (vm_compute; reflexivity). intros H. rewrite H in E. discriminate.
Qed.
(** a variable with the name of an axis: refused *)
Example C65_clash : save0 [MkVar "lat" [lat_ax] (Values (Arr [3] (fun p => inject_Z (nth 0 p 0))))] = None.
Proof. vm_compute. reflexivity. Qed.
Print Assumptions C65_roundtrip.
Print Assumptions C65_file.
Print Assumptions C65_case_refuted.
Print Assumptions C65_reserved_refuted.
