(** Opening with dimtypes, varlist and namemap: lemmas. *)
From Coq Require Import ZArith List Bool Lia QArith_base String.
From Verif Require Import SortSpec IndexModel IndexSpec IndexProofs ArrModel ArrProofs ViewModel ViewSpec ViewProofs AxisModel AxisSpec AxisProofs VarOpsModel VarOpsSpec VarOpsProofs
  ReduceSpec RespondProofs StencilModel SelectModel SelectSpec SelectProofs DatasetModel DatasetSpec DatasetProofs DatasetProps CallProofs DsMapModel DsMapSpec DsMapProofs DsMapProps DsNameModel DsNameProofs FinalModel.
Import ListNotations.
Open Scope Z_scope.
Open Scope list_scope.

(** axis [b] is what dimtypes says is to be put in the place of axis [a] *)
Definition retyped (dimtypes : list (string * dimtype)) (a b : axobj) : Prop :=
  match entry (a_name a) dimtypes with
  | None => b = a
  | Some (Given c) => b = c
  | Some (Built f) => f a = Some (a_name b, a_axis b)
  end.
(** the entries for axis [a] make sense: there is an axis to put in its place, of the same length *)
Definition fits (dimtypes : list (string * dimtype)) (a : axobj) : Prop :=
  exists b, retyped dimtypes a b /\ axis_len (a_axis b) = axis_len (a_axis a).
(** the axis objects given in dimtypes *)
Definition given (dimtypes : list (string * dimtype)) : list axobj :=
  flat_map (fun kd => match snd kd with Given b => [b] | Built _ => [] end) dimtypes.

Lemma entry_in {A} n (l : list (string * A)) x : entry n l = Some x -> In (n, x) l.
Proof. induction l as [|[m y] l IH]; cbn; [discriminate|]. destruct (String.eqb_spec m n) as [->|]; [intros [= ->]; now left|intros H; right; auto]. Qed.
Lemma entry_none {A} n (l : list (string * A)) : entry n l = None <-> ~ In n (map fst l).
Proof.
  induction l as [|[m y] l IH]; cbn; [tauto|]. destruct (String.eqb_spec m n) as [->|Hne]; [split; [discriminate|intros H; exfalso; apply H; now left]|]. rewrite IH. intuition congruence.
Qed.
Lemma entry_some {A} n (l : list (string * A)) x : NoDup (map fst l) -> In (n, x) l -> entry n l = Some x.
Proof.
  induction l as [|[m y] l IH]; cbn; [tauto|]. intros H Hin. inversion H as [|? ? H1 H2]; subst. destruct Hin as [E|Hin].
  - injection E as -> ->. now rewrite String.eqb_refl.
  - destruct (String.eqb_spec m n) as [->|]; [|auto]. exfalso. apply H1. apply in_map_iff. exists (n, x). split; [reflexivity|exact Hin].
Qed.
Lemma given_in dimtypes n b : In (n, Given b) dimtypes -> In b (given dimtypes).
Proof. intros H. apply in_flat_map. exists (n, Given b). split; [exact H|now left]. Qed.

Lemma replacements_spec dimtypes axes : forall next, NoDup (map a_name axes) -> Forall (fits dimtypes) axes -> (forall b, In b (given dimtypes) -> a_id b < next) ->
  exists r next', replacements dimtypes next axes = Some (r, next') /\ next <= next' /\ NoDup (map fst r) /\ (incl (map fst r) (map a_name axes) /\ incl (map fst r) (map fst dimtypes)) /\
    (forall a, In a axes -> match entry (a_name a) r with Some b => retyped dimtypes a b /\ axis_len (a_axis b) = axis_len (a_axis a) | None => entry (a_name a) dimtypes = None end) /\
    (forall k b, In (k, b) r -> In b (given dimtypes) \/ next <= a_id b < next') /\
    (forall k b k' b', In (k, b) r -> In (k', b') r -> a_id b = a_id b' -> next <= a_id b -> b = b').
Proof.
  induction axes as [|a axes IH]; intros next Hnd HF Hg; cbn [replacements].
  - exists [], next. split; [reflexivity|]. split; [lia|]. split; [constructor|]. split; [split; intros k []|]. split; [intros a []|]. split; [intros k b []|intros k b k' b' []].
  - cbn [map] in Hnd. inversion Hnd as [|? ? Hn1 Hn2]; subst. inversion HF as [|? ? Ha HF']; subst.
    destruct Ha as (b & Hb & Hlen). unfold retyped in Hb.
    destruct (entry (a_name a) dimtypes) as [dt|] eqn:Ed.
    2:{ destruct (IH next Hn2 HF' Hg) as (r & next' & E & L & R1 & [R2 R2'] & R3 & R4 & R5). exists r, next'. split; [exact E|]. split; [exact L|]. split; [exact R1|].
        split; [split; [intros k Hk; right; now apply R2|exact R2']|]. split; [|split; [exact R4|exact R5]].
        intros x [<-|Hx]; [|now apply R3]. destruct (entry (a_name a) r) eqn:Er; [|exact Ed]. exfalso. apply Hn1, R2. apply entry_in in Er. apply in_map_iff. eexists; split; [|exact Er]. reflexivity. }
    assert (exists c next1, match dt with Given b => Some (b, next) | Built f => option_map (fun '(n, x) => (MkAx next n x, next + 1)) (f a) end = Some (c, next1) /\ next <= next1 /\
      retyped dimtypes a c /\ axis_len (a_axis c) = axis_len (a_axis a) /\ (In c (given dimtypes) \/ next <= a_id c < next1)) as (c & next1 & -> & Hle & Hc & Hlc & Hid).
    { destruct dt as [d|f].
      - exists d, next. split; [reflexivity|]. split; [lia|]. subst b. split; [unfold retyped; now rewrite Ed|]. split; [exact Hlen|]. left. apply entry_in in Ed. eapply given_in. exact Ed.
      - rewrite Hb. exists (MkAx next (a_name b) (a_axis b)), (next + 1). split; [reflexivity|]. split; [lia|]. split; [unfold retyped; rewrite Ed; exact Hb|]. split; [exact Hlen|]. right. cbn [a_id]. lia. }
    cbn [bind]. rewrite Hlc, Z.eqb_refl.
    destruct (IH next1 Hn2 HF') as (r & next' & E & L & R1 & [R2 R2'] & R3 & R4 & R5); [intros x Hx; pose proof (Hg x Hx); lia|].
    rewrite E. cbn [bind]. exists ((a_name a, c) :: r), next'. split; [reflexivity|]. split; [lia|]. split; [cbn [map fst]; constructor; [intros K; apply Hn1, R2, K|exact R1]|].
    split; [cbn [map fst]; split; intros k [<-|Hk]; [now left|right; now apply R2| |now apply R2']; apply entry_in in Ed; apply in_map_iff; exists (a_name a, dt); split; [reflexivity|exact Ed]|]. split; [|split].
    + intros x [<-|Hx]; cbn [entry].
      * rewrite String.eqb_refl. split; [exact Hc|exact Hlc].
      * destruct (String.eqb_spec (a_name a) (a_name x)) as [En|]; [exfalso; apply Hn1; rewrite En; now apply in_map|]. now apply R3.
    + intros k x [Ek|Hx]; [injection Ek as <- <-; destruct Hid; [now left|right; lia]|]. destruct (R4 k x Hx); [now left|right; lia].
    + intros k x k' x' Hx Hx' Eid Hnew. assert (forall k y, In (k, y) r -> a_id c = a_id y -> next <= a_id c -> c = y) as K.
      { intros k0 y Hy E0 Hn. destruct Hid as [Hid|Hid]; [pose proof (Hg c Hid); lia|]. destruct (R4 k0 y Hy) as [G|G]; [pose proof (Hg y G); lia|lia]. }
      destruct Hx as [Ex|Hx], Hx' as [Ex'|Hx']; [congruence| | |].
      * injection Ex as <- <-. eapply K; eassumption.
      * injection Ex' as <- <-. symmetry. eapply K; [exact Hx|congruence|congruence].
      * destruct (R4 k x Hx) as [G|G]; [pose proof (Hg x G); lia|]. destruct (R4 k' x' Hx') as [G'|G']; [pose proof (Hg x' G'); lia|]. apply (R5 k x k' x' Hx Hx' Eid). lia.
Qed.

(** keys mean the axes with exactly that name *)
Lemma meant_entry N axes i n r : NoDup (map fst r) -> (forall k, In k (map fst r) -> which_axis N axes k = Some i <-> k = n) ->
  forall r0, meant N axes r i r0 = match entry n r with Some b => Some b | None => r0 end.
Proof.
  induction r as [|[k b] r IH]; intros Hnd Hk r0; [reflexivity|]. cbn [map fst] in Hnd. inversion Hnd as [|? ? H1 H2]; subst. unfold meant in *. cbn [fold_left entry].
  rewrite IH; [|exact H2|intros k' Hk'; apply Hk; now right]. destruct (Hk k (or_introl eq_refl)) as [F G].
  destruct (String.eqb_spec k n) as [->|Hne].
  - rewrite (G eq_refl), Nat.eqb_refl. now rewrite (proj2 (entry_none n r) H1).
  - destruct (entry n r); [reflexivity|]. destruct (which_axis N axes k) as [j|]; [|reflexivity]. destruct (Nat.eqb_spec i j) as [->|]; [|reflexivity]. exfalso. apply Hne. now apply F.
Qed.
Definition put_in (r : list (string * axobj)) (a : axobj) : axobj := match entry (a_name a) r with Some b => b | None => a end.
Lemma replaced_objs N r (objs : list axobj) : NoDup (map fst r) ->
  (forall k i a, In k (map fst r) -> nth_error objs i = Some a -> which_axis N (map a_axis objs) k = Some i <-> k = a_name a) ->
  map (fun '(i, a) => match meant N (map a_axis objs) r i None with Some b => b | None => a end) (combine (seq 0 (List.length (map a_axis objs))) objs) = map (put_in r) objs.
Proof.
  intros Hnd Hk. rewrite map_length. assert (forall i a, nth_error objs i = Some a -> meant N (map a_axis objs) r i None = entry (a_name a) r) as Hm.
  { intros i a Ha. rewrite (meant_entry N _ i (a_name a) r Hnd); [now destruct (entry _ r)|]. intros k Hin. now apply Hk. }
  clear Hk Hnd. generalize (meant N (map a_axis objs) r) as m, Hm. clear Hm. intros m Hm.
  assert (forall k, (forall i a, nth_error objs i = Some a -> m (k + i)%nat None = entry (a_name a) r) ->
    map (fun '(i, a) => match m i None with Some b => b | None => a end) (combine (seq k (List.length objs)) objs) = map (put_in r) objs) as G.
  { clear Hm. induction objs as [|a objs IH]; intros k Hm; [reflexivity|]. cbn [List.length seq combine map]. f_equal.
    - pose proof (Hm 0%nat a eq_refl) as E. rewrite Nat.add_0_r in E. rewrite E. reflexivity.
    - apply IH. intros i b Hb. replace (S k + i)%nat with (k + S i)%nat by lia. now apply Hm. }
  apply (G 0%nat). intros i a Ha. cbn. now apply Hm.
Qed.

Section Replace.
Context {V : Type} (N : naming) (env : axenv) (Henv : env_ok env) (junk : list Z -> V) (r : list (string * axobj)).
Definition replaces_var (v w : vobj V) : Prop :=
  v_name w = v_name v /\ v_axes w = map (put_in r) (v_axes v) /\ forall D, separate (map a_axis (v_axes w)) -> responds env (var_of v) D -> responds env (var_of w) D.
Lemma replace_obj_spec next (v : vobj V) : NoDup (map fst r) ->
  (forall k i a, In k (map fst r) -> nth_error (v_axes v) i = Some a -> which_axis N (map a_axis (v_axes v)) k = Some i <-> k = a_name a) ->
  (forall a, In a (v_axes v) -> axis_len (a_axis (put_in r a)) = axis_len (a_axis a)) ->
  exists w, replace_obj N env junk r next v = Some (Some w, next) /\ replaces_var v w.
Proof.
  intros Hnd Hk Hlen. unfold replace_obj. cbv zeta. rewrite (replaced_objs N r (v_axes v) Hnd Hk).
  assert (exists y, replace_axes env junk (var_of v) (map a_axis (map (put_in r) (v_axes v))) = Some y /\ var_axes y = map a_axis (map (put_in r) (v_axes v))) as (y & Ey & Ay).
  { unfold replace_axes. replace (_ && _) with true; [eexists; split; reflexivity|]. symmetry. apply andb_true_iff. cbn [var_of var_axes]. split; [apply Nat.eqb_eq; now rewrite !map_length|].
    clear -Hlen. induction (v_axes v) as [|a l IH]; [reflexivity|]. cbn [map combine forallb]. rewrite IH by (intros; apply Hlen; now right). rewrite (Hlen a (or_introl eq_refl)), Z.eqb_refl. reflexivity. }
  rewrite Ey. cbn [bind]. eexists. split; [reflexivity|]. split; [reflexivity|]. split; [reflexivity|]. intros D Hsep HD. unfold var_of at 1. cbn [v_axes v_source] in *. rewrite <- Ay.
  destruct y as [ya ys]. cbn [var_axes var_source] in *. exact (replace_keeps env Henv junk (var_of v) _ D HD Hsep _ Ey).
Qed.
Lemma replace_all vars : NoDup (map fst r) ->
  (forall v k i a, In v vars -> In k (map fst r) -> nth_error (v_axes v) i = Some a -> which_axis N (map a_axis (v_axes v)) k = Some i <-> k = a_name a) ->
  (forall a, In a (axes_of vars) -> axis_len (a_axis (put_in r a)) = axis_len (a_axis a)) ->
  forall next, exists ws, map_vars (replace_obj N env junk r) next vars = Some (ws, next) /\ Forall2 replaces_var vars ws.
Proof.
  intros Hnd Hk Hlen next. induction vars as [|v l IH]; [exists []; split; [reflexivity|constructor]|]. cbn [map_vars].
  destruct (replace_obj_spec next v Hnd) as (w & Ew & Rw); [intros k i a; apply Hk; now left|intros a Ha; apply Hlen; cbn; apply in_app_iff; now left|].
  destruct IH as (ws & Ews & Rws); [intros u k i a Hu; apply Hk; now right|intros a Ha; apply Hlen; cbn; apply in_app_iff; now right|].
  rewrite Ew. cbn [bind]. rewrite Ews. cbn [bind]. eexists. split; [reflexivity|]. now constructor.
Qed.
End Replace.

Lemma unused_above {V} (ds : @dataset V) a : In a (axes_of (ds_vars ds)) -> a_id a < unused ds.
Proof.
  unfold unused, axes_of. induction (flat_map v_axes (ds_vars ds)) as [|b l IH]; [intros []|]. cbn [map fold_right]. intros [<-|H]; [lia|]. pose proof (IH H). lia.
Qed.
Lemma axes_of_map {V} (g : axobj -> axobj) (vs ws : list (vobj V)) : Forall2 (fun v w => v_axes w = map g (v_axes v)) vs ws -> axes_of ws = map g (axes_of vs).
Proof. intros H. unfold axes_of. induction H as [|v w vs ws E _ IH]; [reflexivity|]. cbn [flat_map]. now rewrite IH, E, map_app. Qed.
