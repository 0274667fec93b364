(** multiple_regress: the observations at each point. *)
From Coq Require Import ZArith List Bool Lia QArith_base Qcanon.
From Verif Require Import SortSpec IndexModel IndexSpec IndexProofs ArrModel ArrProofs ViewModel ViewSpec ViewProofs FibreProofs
     AxisModel AxisSpec AxisProofs VarOpsModel VarOpsSpec VarOpsProofs NumModel NumProofs ReduceModel ReduceSpec ReduceProofs StatProofs RespondProofs
     UfuncModel UfuncSpec UfuncProofs UfuncView ClimLine RegressModel RegressSpec RegressAxes RegressLine MeansProofs MultiModel MultiSpec MultiLeast MultiSums MultiProofs.
From Verif Require UfuncProps MeansPairs InterpProofs RegressSums.
Import ListNotations.
Open Scope Z_scope.
Open Scope list_scope.

Section Place.
Context (env : axenv) (Henv : env_ok env) (MAX : Z) (HMAX : 1 <= MAX) (junk : list Z -> num) (sqrt : num -> num) (cdf : num -> num -> num) (inv : list (list num) -> option (list (list num)))
  (Xs : list (var axis num)) (Hinv : inverts (length Xs) inv) (DXs : list (list Z -> num)) (Y : var axis num) (DY : list Z -> num)
  (Hne : Xs <> []) (HX : Forall2 (responds env) Xs DXs) (HY : responds env Y DY) (Hfit : fitting_all (Xs ++ [Y]))
  (HXf : Forall2 all_finite Xs DXs) (HYf : all_finite Y DY).
Notation All := (flat_map var_axes (Xs ++ [Y])).
(** some chosen dimension is not shared *)
Definition unshared (axes : option (list nat)) : Prop :=
  exists XA l src i, combine_axes env (map var_axes Xs) = Some XA /\ axes = Some l /\ combine_axes env [XA; var_axes Y] = Some src /\ In i l /\
    forall b, nth_error src i = Some b -> ~ (along_dimension (grid XA) b /\ along_dimension Y b).
Lemma all_split : All = flat_map var_axes Xs ++ var_axes Y.
Proof. rewrite flat_map_app. cbn [flat_map]. now rewrite app_nil_r. Qed.
Lemma multi_axes_spec axes : (forall l, axes = Some l -> NoDup l) ->
  match multi_axes env Xs Y axes with
  | Some (outer, over) => divides env Xs Y axes outer over /\ separate (outer ++ over) /\ incl (outer ++ over) All /\ covers_axes All (outer ++ over) /\
      forall b, In b over -> along_dimension Y b
  | None => unshared axes
  end.
Proof.
  intros Hnd. destruct Hfit as [Hf1 Hf2]. rewrite all_split in *.
  assert (Forall tight_axis (flat_map var_axes Xs)) as HtX by (apply Forall_forall; intros a Ha; apply Hf1, in_app_iff; now left).
  destruct (combine_axes_spec env Henv (flat_map var_axes Xs) HtX) with (lists := map var_axes Xs) as (XA & E & HI & Hsep & Hcov).
  { intros a b Ha Hb. apply Hf2; apply in_app_iff; now left. }
  { now rewrite flat_map_concat_map. }
  { intros E. apply map_eq_nil in E. contradiction. }
  { apply Forall_map. apply Forall_forall. intros x Hx. apply In_nth_error in Hx as (i & Hi). destruct (nth_error DXs i) as [D|] eqn:Ed; [|apply nth_error_None in Ed; pose proof (Forall2_len _ _ _ HX); assert (i < length Xs)%nat by (apply nth_error_Some; congruence); lia]. exact (proj1 (Forall2_nth_error _ _ _ _ _ _ HX Hi Ed)). }
  unfold multi_axes. rewrite E.
  assert (incl (XA ++ var_axes Y) (flat_map var_axes Xs ++ var_axes Y)) as Hincl.
  { intros a Ha. apply in_app_iff in Ha as [Ha|Ha]; apply in_app_iff; [left; now apply HI|now right]. }
  assert (fitting (grid XA) Y) as Hf.
  { split; [intros a Ha; apply Hf1, Hincl, Ha|]. intros a b Ha Hb. apply Hf2; apply Hincl; assumption. }
  pose proof (pair_axes_spec env Henv (grid XA) Y Hsep (proj1 HY) Hf axes Hnd) as K. cbn [var_axes grid] in K. destruct (pair_axes env (grid XA) Y axes) as [[outer over]|].
  - destruct K as (K1 & K2 & K3). split; [exists XA; split; [exact E|exact K1]|]. destruct K1 as (src & Es & Hs & _ & Hov & _). split; [exact Hs|].
    split; [intros a Ha; apply Hincl, K2, Ha|]. split; [|intros b Hb; apply (Hov b Hb)].
    intros s Hin. apply in_app_iff in Hin as [Hin|Hin].
    + destruct (Hcov s Hin) as (o & l & Ho & Hl). destruct (K3 o) as (o' & l' & Ho' & Hl'); [apply in_app_iff; now left|]. exists o', (map (znth l) l'). split; [exact Ho'|]. now apply (restricts_trans s l o).
    + apply K3, in_app_iff. now right.
  - destruct K as (l & src & E1 & E2 & i & Hi & Hb). exists XA, l, src, i. auto.
Qed.

Section Over.
Context (outer over : list axis) (Hsep : separate (outer ++ over)) (Hincl : incl (outer ++ over) All) (Hcov : covers_axes All (outer ++ over)).
Notation I := (outer ++ over).
Lemma axes_in x : In x (Xs ++ [Y]) -> incl (var_axes x) All.
Proof. intros Hx a Ha. apply in_flat_map. exists x. split; assumption. Qed.
Lemma place_var x D : In x (Xs ++ [Y]) -> responds env x D -> (forall b, In b over -> along_dimension x b) -> exists js, placed env outer over x D (derived_data D js) /\ Forall2 (located I) (var_axes x) js.
Proof.
  intros Hx Hr Hover. destruct (locate_axes All I (var_axes x) Hsep Hcov (axes_in x Hx) (proj1 Hr)) as (js & J1 & J2). exists js. split; [|exact J1]. split; [exact Hr|]. exists js.
  split; [exact J1|]. split; [exact J2|]. split; [|reflexivity]. intros i [Hi1 Hi2].
  destruct (nth_error I i) as [b|] eqn:Eb; [|apply nth_error_None in Eb; lia].
  assert (In b over) as Hb by (rewrite nth_error_app2 in Eb by exact Hi1; eapply nth_error_In, Eb).
  destruct (Hover b Hb) as (a & l & Ha & Hl). apply In_nth_error in Ha as (k & Hk). pose proof (Forall2_len _ _ _ J1) as HL.
  destruct (nth_error js k) as [ii|] eqn:E1; [|apply nth_error_None in E1; assert (k < length (var_axes x))%nat by (apply nth_error_Some; congruence); lia].
  destruct (Forall2_nth_error _ _ _ _ _ _ J1 Hk E1) as ((_ & _ & _ & _ & Hun) & _). apply in_map_iff. exists ii. split; [|eapply nth_error_In, E1].
  destruct (Nat.eq_dec (fst ii) i) as [|Hne']; [assumption|]. exfalso. apply (restricts_related env Henv a l b Hl). apply (Hun i b); [congruence|exact Eb].
Qed.
Lemma there_value x D js q : Forall2 (located I) (var_axes x) js -> all_finite x D -> position (map axis_len I) q -> exists v, derived_data D js q = Fin v /\ value_there x D I q (Fin v).
Proof.
  intros Hj Hf Hq. destruct (UfuncProps.located_place I (var_axes x) js q Hj Hq) as [K1 K2]. destruct (Hf _ K1) as (v & Ev). exists v. split; [exact Ev|].
  eexists. split; [exact K1|]. split; [exact K2|]. symmetry. exact Ev.
Qed.
Lemma place_all : (forall x b, In x Xs -> In b over -> along_dimension x b) ->
  exists EXs, Forall2 (fun '(x, D) E => placed env outer over x D E) (combine Xs DXs) EXs /\
    Forall2 (fun '(x, D) E => forall q, position (map axis_len I) q -> exists v, E q = Fin v /\ value_there x D I q (Fin v)) (combine Xs DXs) EXs.
Proof.
  intros Hover. pose proof place_var as PV.
  assert (forall xs ds, Forall2 (responds env) xs ds -> Forall2 all_finite xs ds -> incl xs Xs ->
    exists EXs, Forall2 (fun '(x, D) E => placed env outer over x D E) (combine xs ds) EXs /\
    Forall2 (fun '(x, D) E => forall q, position (map axis_len I) q -> exists v, E q = Fin v /\ value_there x D I q (Fin v)) (combine xs ds) EXs) as G; [|apply G; [exact HX|exact HXf|apply incl_refl]].
  intros xs. induction xs as [|x xs IH]; intros ds HXs HF Hsub; inversion HXs as [|? D ? ds' Hr HXs']; subst; cbn [combine]; [exists []; split; constructor|].
  inversion HF as [|? ? ? ? Hf HF']; subst. assert (In x Xs) as Hx by (apply Hsub; now left).
  destruct (PV x D) as (js & P1 & P2); [apply in_app_iff; now left|exact Hr|intros b Hb; now apply Hover|].
  destruct (IH ds' HXs' HF') as (Es & Q1 & Q2); [intros z Hz; apply Hsub; now right|].
  exists (derived_data D js :: Es). split; constructor; [exact P1|exact Q1| |exact Q2]. intros q Hq. now apply there_value.
Qed.
End Over.

Lemma rows_observed outer over EXs EY k : position (map axis_len outer) k ->
  Forall2 (fun '(x, D) E => forall q, position (map axis_len (outer ++ over)) q -> exists v, E q = Fin v /\ value_there x D (outer ++ over) q (Fin v)) (combine Xs DXs) EXs ->
  (forall q, position (map axis_len (outer ++ over)) q -> exists v, EY q = Fin v /\ value_there Y DY (outer ++ over) q (Fin v)) ->
  observed Xs Y DXs DY outer over k (rows EXs EY over k).
Proof.
  intros Hk HE HEY. pose proof (Forall2_len _ _ _ HE) as HL. rewrite combine_length, <- (Forall2_len _ _ _ HX), Nat.min_id in HL. unfold observed, rows.
  assert (forall r, In r (positions (map axis_len over)) -> position (map axis_len (outer ++ over)) (k ++ r)) as Hpos.
  { intros r Hr. rewrite map_app. apply Forall2_app; [exact Hk|]. apply in_pos, Hr. }
  revert Hpos. generalize (positions (map axis_len over)) as rs. induction rs as [|r rs IH]; intros Hpos; cbn [map]; constructor; [|apply IH; intros z Hz; apply Hpos; now right].
  specialize (Hpos r (or_introl eq_refl)). split; [|split; [rewrite map_length; symmetry; exact HL|]].
  - clear HL IH. induction HE as [|[x D] E l Es H _ IH]; cbn [map]; constructor; [|exact IH]. destruct (H (k ++ r) Hpos) as (v & Ev & Hv). cbn [fst snd]. rewrite Ev. exact Hv.
  - destruct (HEY (k ++ r) Hpos) as (v & Ev & Hv). rewrite Ev. exact Hv.
Qed.
Lemma multi_fit_spec axes N_fac : (forall l, axes = Some l -> NoDup l) ->
  (forall outer over, divides env Xs Y axes outer over -> forall x b, In x Xs -> In b over -> along_dimension x b) ->
  match multi_fit env junk MAX sqrt cdf inv Xs Y axes N_fac with
  | Some (outer, a) => exists over, divides env Xs Y axes outer over /\ over <> [] /\ separate outer /\ shape a = map axis_len outer /\
      forall k, position (map axis_len outer) k -> exists l, observed Xs Y DXs DY outer over k l /\ multi_result sqrt cdf (length Xs) N_fac l (val a k)
  | None => unshared axes \/ (exists outer, divides env Xs Y axes outer []) \/
      exists outer over k l, divides env Xs Y axes outer over /\ position (map axis_len outer) k /\ observed Xs Y DXs DY outer over k l /\ dependent (length Xs) l
  end.
Proof.
  intros Hnd Hall. pose proof (multi_axes_spec axes Hnd) as K. unfold multi_fit. destruct (multi_axes env Xs Y axes) as [[outer over]|]; [|now left].
  destruct K as (Hdiv & Hsep & Hincl & Hcov & HYo). specialize (Hall outer over Hdiv).
  destruct over as [|b0 over0] eqn:Eo; [right; left; exists outer; exact Hdiv|]. rewrite <- Eo in *. assert (over <> []) as Hone by (rewrite Eo; discriminate). clear Eo b0 over0.
  assert (Forall good_axis (outer ++ over)) as Hg by (apply Forall_forall; intros a Ha; apply (proj1 Hfit a (Hincl a Ha))).
  assert (forall a, In a (outer ++ over) -> 0 < axis_len a) as Hp by (intros a Ha; apply (proj1 Hfit a (Hincl a Ha))).
  destruct (place_all outer over Hsep Hcov Hall) as (EXs & P1 & P2).
  destruct (place_var outer over Hsep Hcov Y DY) as (jy & Q1 & Q2); [apply in_app_iff; right; now left|exact HY|exact HYo|]. set (EY := derived_data DY jy) in *.
  assert (forall q, position (map axis_len (outer ++ over)) q -> exists v, EY q = Fin v /\ value_there Y DY (outer ++ over) q (Fin v)) as Q3 by (intros q Hq; now apply there_value).
  assert (forall E q, In E (EY :: EXs) -> position (map axis_len (outer ++ over)) q -> exists v, E q = Fin v) as Hfin.
  { intros E q [<-|HE] Hq; [destruct (Q3 q Hq) as (v & Ev & _); now exists v|]. apply In_nth_error in HE as (i & Hi). pose proof (Forall2_len _ _ _ P2) as HL.
    destruct (nth_error (combine Xs DXs) i) as [[x D]|] eqn:E2; [|apply nth_error_None in E2; assert (i < length EXs)%nat by (apply nth_error_Some; congruence); lia].
    destruct (Forall2_nth_error _ _ _ _ _ _ P2 E2 Hi q Hq) as (v & Ev & _). now exists v. }
  pose proof (Forall2_len _ _ _ HX) as HlX.
  destruct (multi_sums_spec env Henv MAX HMAX junk outer over Hsep Hg Hp Xs DXs Y DY EXs EY P1 HlX Q1 Hfin) as (s & Es & Hs & Hv). rewrite Es, Hs.
  pose proof (fun k Hk => rows_observed outer over EXs EY k Hk P2 Q3) as Hobs.
  assert (0 < length Xs)%nat as Hn by (destruct Xs; [contradiction|cbn; lia]).
  assert (forall k xs y, In (xs, y) (rows EXs EY over k) -> length xs = length Xs) as Hlen.
  { intros k xs y Hin. apply in_map_iff in Hin as (r & E & _). injection E as <- _. rewrite map_length, <- (Forall2_len _ _ _ P1), combine_length. lia. }
  destruct (forallb _ _) eqn:Ef.
  - exists over. split; [exact Hdiv|]. split; [exact Hone|]. split.
    { intros i j a b Ha Hb Hne'. apply (Hsep i j a b); [rewrite nth_error_app1; [exact Ha|apply nth_error_Some; congruence]|rewrite nth_error_app1; [exact Hb|apply nth_error_Some; congruence]|exact Hne']. }
    split; [reflexivity|]. intros k Hk. exists (rows EXs EY over k). split; [now apply Hobs|]. cbn [val].
    rewrite forallb_forall in Ef. specialize (Ef k (proj2 (in_pos _ _) Hk)). rewrite (Hv k Hk) in *. cbn [moments_of g_xx] in *.
    pose proof (Hinv (gram (length Xs) (rows EXs EY over k)) (gram_square _ _)) as Hi. destruct (inv _) as [w|]; [|discriminate]. destruct Hi as (w' & -> & Hw).
    replace (prod (map axis_len over)) with (zlen (rows EXs EY over k)).
    + apply mfit_spec; [|exact (Hlen k)|exact Hw]. intros E. apply map_eq_nil in E. revert E. apply RegressSums.positions_ne. apply Forall_forall. intros n Hin. apply in_map_iff in Hin as (a & <- & Ha). apply Hp, in_app_iff. now right.
    + unfold zlen, rows, positions. rewrite map_length. apply InterpProofs.product_length. apply Forall_forall. intros n Hin. apply in_map_iff in Hin as (a & <- & Ha). specialize (Hp a ltac:(apply in_app_iff; now right)). lia.
  - right. right. assert (exists k, In k (product (map (fun n => arange 0 n 1) (map axis_len outer))) /\ inv (g_xx (val s k)) = None) as (k & Hk & Ek).
    { revert Ef. generalize (product (map (fun n => arange 0 n 1) (map axis_len outer))) as L. induction L as [|k L IH]; cbn [forallb]; [discriminate|].
      destruct (inv (g_xx (val s k))) eqn:Ei; [|exists k; split; [now left|exact Ei]]. intros E. destruct (IH E) as (k' & H1 & H2). exists k'. split; [now right|exact H2]. }
    apply in_pos in Hk. exists outer, over, k, (rows EXs EY over k). split; [exact Hdiv|]. split; [exact Hk|]. split; [now apply Hobs|].
    rewrite (Hv k Hk) in Ek. cbn [moments_of g_xx] in Ek. pose proof (Hinv (gram (length Xs) (rows EXs EY over k)) (gram_square _ _)) as Hi. rewrite Ek in Hi.
    destruct Hi as (v & Lv & Hv0 & Hz). exists v. split; [exact Lv|]. split; [exact Hv0|]. exact (gram_kernel _ _ v (Hlen k) Hz).
Qed.
End Place.
