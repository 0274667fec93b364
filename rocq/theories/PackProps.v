(** C43: data packed into short integers, fill values, scale and offset *)
From Coq Require Import ZArith List Bool Lia QArith_base Qcanon.
From Verif Require Import SortSpec IndexModel IndexSpec ArrModel ViewModel ViewSpec AxisModel AxisSpec VarOpsModel VarOpsSpec EnvExample
  NumModel ReduceModel ReduceSpec ReduceProps StencilModel StencilSpec StencilProps InterpProps PackModel PackSpec PackProofs RespondProofs ViewProps.
Import ListNotations.
Open Scope Z_scope.

(** What is read from a file through the attributes _FillValue, scale_factor and add_offset, on the axes made from the attributes of the
    file's axes: NaN wherever the stored value is the fill value, otherwise the stored value times the scale plus the offset - whatever
    part of the variable is read. *)
Theorem C43_unpack : forall W env (junk : list Z -> W) of newaxes fill scale offset (x : var axis W) D,
  env_ok env -> responds env x D -> separate newaxes -> map axis_len newaxes = map axis_len (var_axes x) ->
  exists y E, unpack env junk of newaxes fill scale offset x = Some y /\ var_axes y = newaxes /\ computes env y E /\
    forall q, (fill = Some (of (D q)) -> of (D q) <> NaN -> E q = NaN) /\
              (fill <> Some (of (D q)) ->
                 E q = match scale, offset with
                       | Some s, Some o => add (mul (of (D q)) s) o
                       | Some s, None => mul (of (D q)) s
                       | None, Some o => add (of (D q)) o
                       | None, None => of (D q)
                       end).
Proof.
  intros W env junk of newaxes fill scale offset x D Henv Hx Hs Hl. destruct (unpack_spec env Henv junk of newaxes fill scale offset x D Hx Hs Hl) as (y & Hy & Ha & Hr).
  eexists y, _. split; [exact Hy|]. split; [exact Ha|]. split; [apply (StencilProps.computed env Henv); exact Hr|]. intros q. cbv beta. unfold unpack_value. split.
  - intros -> Hn. replace (np_eq (of (D q)) (of (D q))) with true; [reflexivity|]. destruct (of (D q)); cbn [np_eq]; try reflexivity; [|congruence].
    symmetry. now apply StatProofs.qc_eqb_eq.
  - intros Hf. destruct fill as [f|]; [|now destruct scale, offset]. replace (np_eq (of (D q)) f) with false; [now destruct scale, offset|].
    destruct (of (D q)) as [p| | |], f as [r| | |]; cbn [np_eq]; try reflexivity; try congruence. symmetry. apply StatProofs.qc_eqb_neq. congruence.
Qed.
Print Assumptions C43_unpack.

(** Packing (save(..., pack=True)) and reading back, when no infinities and at least one number are in the data: the codes fit into
    16 bits and every number comes back to within one step, 1/65534 of the range of the data; a constant field comes back exactly (whatever
    the machine makes of 0/0).  [wild]: what the machine makes of NaN and of numbers beyond 16 bits. *)
Theorem C43_pack_partial : forall env junk junkz MAX wild newaxes x D q0 d0,
  env_ok env -> 1 <= MAX -> responds env x D -> Forall good_axis (var_axes x) -> var_axes x <> [] -> Forall (fun a => 0 < axis_len a) (var_axes x) ->
  separate newaxes -> map axis_len newaxes = map axis_len (var_axes x) ->
  (forall q, position (var_shape x) q -> D q = NaN \/ exists d, D q = Fin d) -> position (var_shape x) q0 -> D q0 = Fin d0 ->
  exists y s o C lo hi z E,
    pack env junk MAX wild x = Some (y, s, o) /\ var_axes y = var_axes x /\ computes env y C /\ extremes x D lo hi /\
    unpack env junkz num_of_Z newaxes None (Some s) (Some o) y = Some z /\ var_axes z = newaxes /\ computes env z E /\
    forall q d, position (var_shape x) q -> D q = Fin d ->
      ((lo < hi)%Qc -> -32767 <= C q <= 32767) /\
      exists e, E q = Fin e /\ ((lo < hi)%Qc -> (- packing_step lo hi < e - d)%Qc /\ (e - d < packing_step lo hi)%Qc) /\ (lo = hi -> e = d).
Proof.
  intros env junk junkz MAX wild newaxes x D q0 d0 Henv HM Hx Hg Hne Hpos Hs Hl Hfin Hq0 Hd0.
  destruct (pack_spec env Henv MAX HM junk x D Hx Hg Hne Hpos Hfin q0 d0 Hq0 Hd0 wild) as (lo & hi & y & Hp & Hex & Ha & Hr).
  destruct (unpack_spec env Henv junkz num_of_Z newaxes None (Some (Fin (packing_step lo hi))) (Some (Fin (middle lo hi))) y _ Hr Hs ltac:(now rewrite Ha)) as (z & Hz & Haz & Hrz).
  eexists y, _, _, _, lo, hi, z, _. split; [exact Hp|]. split; [exact Ha|]. split; [apply (StencilProps.computed env Henv); exact Hr|]. split; [exact Hex|]. split; [exact Hz|].
  split; [exact Haz|]. split; [apply (StencilProps.computed env Henv); exact Hrz|]. intros q d Hq E. cbv beta. rewrite E. destruct (proj2 (proj2 Hex) q d Hq E) as [H1 H2].
  destruct (Qc_eq_dec lo hi) as [<-|Hd].
  - split; [intros H; exfalso; revert H; apply Qcle_not_lt, Qcle_refl|]. eexists. split; [apply back_same|]. split; [intros H; exfalso; revert H; apply Qcle_not_lt, Qcle_refl|].
    intros _. now apply Qcle_antisym.
  - assert (lo < hi)%Qc as Hlt by (apply Qcnot_le_lt; intros H; apply Hd; apply Qcle_antisym; [eapply Qcle_trans; eassumption|exact H]).
    destruct (back_fin wild lo hi d Hlt H1 H2) as (A & e & Ee & B). cbv zeta in A, Ee. split; [intros _; exact A|]. exists e. split; [exact Ee|]. split; [intros _; exact B|]. congruence.
Qed.
Print Assumptions C43_pack_partial.

(** Not proved above, because not true: missing values are not kept.  Whatever the machine makes of NaN when it converts it to an
    integer, a NaN in the data comes back as a number. *)
Theorem C43_nan_refuted : forall env junk junkz MAX wild newaxes x D q0 d0 qn,
  env_ok env -> 1 <= MAX -> responds env x D -> Forall good_axis (var_axes x) -> var_axes x <> [] -> Forall (fun a => 0 < axis_len a) (var_axes x) ->
  separate newaxes -> map axis_len newaxes = map axis_len (var_axes x) ->
  (forall q, position (var_shape x) q -> D q = NaN \/ exists d, D q = Fin d) -> position (var_shape x) q0 -> D q0 = Fin d0 ->
  position (var_shape x) qn -> D qn = NaN ->
  exists y s o z E e, pack env junk MAX wild x = Some (y, s, o) /\ unpack env junkz num_of_Z newaxes None (Some s) (Some o) y = Some z /\
    computes env z E /\ E qn = Fin e.
Proof.
  intros env junk junkz MAX wild newaxes x D q0 d0 qn Henv HM Hx Hg Hne Hpos Hs Hl Hfin Hq0 Hd0 Hqn En.
  destruct (pack_spec env Henv MAX HM junk x D Hx Hg Hne Hpos Hfin q0 d0 Hq0 Hd0 wild) as (lo & hi & y & Hp & Hex & Ha & Hr).
  destruct (unpack_spec env Henv junkz num_of_Z newaxes None (Some (Fin (packing_step lo hi))) (Some (Fin (middle lo hi))) y _ Hr Hs ltac:(now rewrite Ha)) as (z & Hz & Haz & Hrz).
  eexists y, _, _, z, _, _. split; [exact Hp|]. split; [exact Hz|]. split; [apply (StencilProps.computed env Henv); exact Hrz|]. cbv beta. unfold unpack_value, num_of_Z. cbn [mul add]. reflexivity.
Qed.
Print Assumptions C43_nan_refuted.

(** The fill value used is the first of FillValue, _FillValue and missing_value given that is not zero; *)
Theorem C43_fill : forall atts f,
  fill_value atts = Some f <-> f <> zero /\ exists before after, atts = before ++ Some f :: after /\ forall v, In (Some v) before -> v = zero.
Proof.
  intros atts f. unfold fill_value.
  assert (forall v, is_zero v = true <-> v = zero) as Z0.
  { intros v. unfold is_zero. destruct v as [q| | |]; cbn [np_eq zero]; try (split; intros; discriminate). rewrite StatProofs.qc_eqb_eq. split; [now intros ->|now intros [=]]. }
  induction atts as [|[v|] atts IH]; cbn [flat_map app filter].
  - split; [discriminate|]. intros (_ & [|? ?] & ? & [=] & _).
  - destruct (is_zero v) eqn:Ev; cbn [negb].
    + apply Z0 in Ev. subst v. rewrite IH. split; intros (Hf & before & after & E & H).
      * split; [exact Hf|]. exists (Some zero :: before), after. split; [now rewrite E|]. intros v [[= <-]|Hv]; [reflexivity|auto].
      * split; [exact Hf|]. destruct before as [|b before]; [injection E as E _; now contradict Hf|]. injection E as <- E. exists before, after. split; [exact E|]. intros v Hv. apply H. now right.
    + split.
      * intros [= <-]. split; [intros E; apply Z0 in E; congruence|]. exists [], atts. split; [reflexivity|]. intros ? [].
      * intros (Hf & before & after & E & H). destruct before as [|b before]; [now injection E as -> _|]. exfalso. injection E as <- E.
        specialize (H v (or_introl eq_refl)). apply Z0 in H. congruence.
  - rewrite IH. split; intros (Hf & before & after & E & H); (split; [exact Hf|]).
    + exists (None :: before), after. split; [now rewrite E|]. intros v [[=]|Hv]; auto.
    + destruct before as [|b before]; [discriminate E|]. injection E as <- E. exists before, after. split; [exact E|]. intros v Hv. apply H. now right.
Qed.
Print Assumptions C43_fill.

(** a fill value of zero is ignored: the zeros that mean "missing" are read as data *)
Theorem C43_zero_fill_refuted : forall env (junk : list Z -> num) newaxes x D q,
  env_ok env -> responds env x D -> separate newaxes -> map axis_len newaxes = map axis_len (var_axes x) -> D q = zero ->
  exists y E, unpack env junk (fun v => v) newaxes (fill_value [None; Some zero; None]) None None x = Some y /\ computes env y E /\ E q = zero.
Proof.
  intros env junk newaxes x D q Henv Hx Hs Hl Hq. destruct (unpack_spec env Henv junk (fun v => v) newaxes (fill_value [None; Some zero; None]) None None x D Hx Hs Hl) as (y & Hy & Ha & Hr).
  eexists y, _. split; [exact Hy|]. split; [apply (StencilProps.computed env Henv); exact Hr|]. cbv beta. rewrite Hq. reflexivity.
Qed.
Print Assumptions C43_zero_fill_refuted.

(** *** the hypotheses are met: a field with a missing value, packed and read back on other axes of the same lengths *)
Definition codes : var axis num := source [lon3] (fun p => match p with [0] => num_of_Z 1 | [1] => num_of_Z (-99) | _ => num_of_Z 3 end).
Definition three (v : num) : option Z := match v with Fin q => Some (truncate (q * Q2Qc (inject_Z 1000))%Qc) | _ => None end.
Definition show1000 (y : option (var axis num)) (inds ps : list (list Z)) :=
  match y with
  | Some y => match get (axis_ops env0) zs (view_of_inds (var_axes y) inds) y true true with Some r => Some (shape r, map (fun p => three (val r p)) ps) | None => None end
  | None => None
  end.
Example C43_nonvacuous :
  env_ok env0 /\ responds env0 field obs /\ Forall good_axis (var_axes field) /\ Forall (fun a => 0 < axis_len a) (var_axes field) /\
  separate [lat2; lon3] /\ obs [0; 1] = NaN /\ obs [0; 0] = num_of_Z 1 /\
  show1000 (match pack env0 zs 4 (fun _ => -32768) field with Some (y, s, o) => unpack env0 (fun _ => 0) num_of_Z [lat2; lon3] None (Some s) (Some o) y | None => None end)
       [[0; 1]; [0; 1; 2]] [[0; 0]; [0; 1]; [0; 2]; [1; 0]; [1; 1]; [1; 2]]
    = Some ([2; 3], [Some 1000; Some 999; Some 3000; Some 4000; Some 5000; Some 9000]) /\
  show (unpack env0 zs (fun v => v) [lon3] (fill_value [None; Some zero; Some (num_of_Z (-99))]) (Some (num_of_Z 2)) (Some (num_of_Z 10)) codes) [[0; 1; 2]] [[0]; [1]; [2]]
    = Some ([3], [Some 12; None; Some 16]%Q) /\
  show (unpack env0 zs (fun v => v) [lat2] None None None codes) [[0]] [[0]] = None.
Proof.
  split; [apply env0_ok|]. split; [apply field_responds|]. split; [apply field_good|]. split; [repeat constructor|]. split; [exact (proj1 field_responds)|].
  split; [reflexivity|]. split; [reflexivity|]. split; [vm_compute; reflexivity|]. split; vm_compute; reflexivity.
Qed.
