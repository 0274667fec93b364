(** C73: the arguments of sorted(). *)
From Coq Require Import ZArith List Bool Lia QArith_base String.
From Verif Require Import SortSpec TimeSearchSpec IndexModel IndexSpec IndexProofs ArrModel ArrProofs ViewModel ViewSpec ViewProofs AxisModel AxisSpec AxisProofs VarOpsModel VarOpsSpec VarOpsProofs
  ReduceSpec RespondProofs StencilModel StencilSpec SelectModel SelectSpec SelectProofs DatasetProofs EnvExample ViewProps SelectProps AxisProps StencilProps VarOpsProps SortAny OpenAllProps SortCallModel.
Import ListNotations.
Open Scope Z_scope.
Open Scope list_scope.

(** the order that sorted( *pos, **kw) asks for on axis [i]: 1 increasing, -1 decreasing, 0 the natural order of the axis *)
Definition asked (N : naming) (axes : list axis) (pos : list string) (kw : list (string * Z)) (i : nat) (o : Z) : Prop :=
  (exists pre k post, kw = pre ++ (k, o) :: post /\ first_axis N axes k i /\ forall m, In m post -> ~ first_axis N axes (fst m) i) \/
  ((forall m, In m kw -> ~ first_axis N axes (fst m) i) /\ (exists k, In k pos /\ first_axis N axes k i) /\ o = 0) \/
  (pos = [] /\ kw = [] /\ o = 0).
Definition good_order (o : Z) : Prop := o = 1 \/ o = 0 \/ o = -1.

Lemma order_of_spec N axes entries i :
  match order_of N axes entries i with
  | Some o => exists pre k post, entries = pre ++ (k, o) :: post /\ which_axis N axes k = Some i /\ forall m, In m post -> which_axis N axes (fst m) <> Some i
  | None => forall m, In m entries -> which_axis N axes (fst m) <> Some i
  end.
Proof.
  unfold order_of. induction entries as [|[k o] l IH] using rev_ind; [intros m []|]. rewrite fold_left_app. cbn [fold_left].
  destruct (which_axis N axes k) as [j|] eqn:E; [destruct (Nat.eqb_spec i j) as [->|Hne]|].
  - exists l, k, []. split; [reflexivity|]. split; [exact E|]. intros m [].
  - destruct (fold_left _ l None) as [o'|].
    + destruct IH as (pre & k' & post & -> & K1 & K2). exists pre, k', (post ++ [(k, o)]). split; [now rewrite <- app_assoc|]. split; [exact K1|]. intros m Hm. apply in_app_iff in Hm as [Hm|[<-|[]]]; [auto|cbn [fst]; congruence].
    + intros m Hm. apply in_app_iff in Hm as [Hm|[<-|[]]]; [auto|cbn [fst]; congruence].
  - destruct (fold_left _ l None) as [o'|].
    + destruct IH as (pre & k' & post & -> & K1 & K2). exists pre, k', (post ++ [(k, o)]). split; [now rewrite <- app_assoc|]. split; [exact K1|]. intros m Hm. apply in_app_iff in Hm as [Hm|[<-|[]]]; [auto|cbn [fst]; congruence].
    + intros m Hm. apply in_app_iff in Hm as [Hm|[<-|[]]]; [auto|cbn [fst]; congruence].
Qed.

(** the last split of a list in two ways *)
Lemma two_splits {A} (p q : list A) x y r u : p ++ x :: r = q ++ y :: u -> x = y \/ In x u \/ In y r.
Proof.
  revert q. induction p as [|z p IH]; intros [|w q] E; cbn [app] in E; injection E as E0 E1; subst; [now left| | |now apply (IH q)].
  - right. right. apply in_or_app. right. now left.
  - right. left. apply in_or_app. right. now left.
Qed.
Lemma asked_order_of N axes pos kw i o : map (fun k => (k, 0)) pos ++ kw <> [] -> asked N axes pos kw i o <-> order_of N axes (map (fun k => (k, 0)) pos ++ kw) i = Some o.
Proof.
  intros Hne. pose proof (order_of_spec N axes (map (fun k => (k, 0)) pos ++ kw) i) as HS. split.
  - intros [(pre & k & post & -> & F & L)|[(L & (k & Hk & F) & ->)|(-> & -> & _)]]; [| |now destruct Hne].
    + destruct (order_of N axes _ i) as [o'|].
      * destruct HS as (pre' & k' & post' & E & F' & L'). rewrite app_assoc in E. destruct (two_splits _ _ _ _ _ _ E) as [H|[H|H]]; [congruence| |].
        -- exfalso. apply (L' _ H). now apply which_axis_spec.
        -- exfalso. apply (L _ H). now apply which_axis_spec.
      * exfalso. apply (HS (k, o)); [apply in_app_iff; right; apply in_app_iff; right; now left|]. now apply which_axis_spec.
    + destruct (order_of N axes _ i) as [o'|].
      * destruct HS as (pre' & k' & post' & E & F' & L'). assert (In (k', o') (map (fun k => (k, 0)) pos ++ kw)) as Hin by (rewrite E; apply in_app_iff; right; now left).
        apply in_app_iff in Hin as [Hin|Hin]; [apply in_map_iff in Hin as (x & [= _ <-] & _); reflexivity|]. exfalso. apply (L _ Hin). now apply which_axis_spec.
      * exfalso. apply (HS (k, 0)); [apply in_app_iff; left; apply in_map_iff; now exists k|]. now apply which_axis_spec.
  - intros E. rewrite E in HS. destruct HS as (pre & k & post & Ep & F & L). apply which_axis_spec in F.
    assert (forall l l', l ++ kw = l' ++ (k, o) :: post -> (exists m, kw = m ++ (k, o) :: post) \/ (exists m, post = m ++ kw /\ In (k, o) l)) as Hsplit.
    { induction l as [|x l IH]; intros [|y l'] H; cbn [app] in H.
      - left. exists []. exact H.
      - left. exists (y :: l'). exact H.
      - injection H as -> H. right. exists l. split; [now symmetry|now left].
      - injection H as _ H. destruct (IH l' H) as [K|(m & K1 & K2)]; [now left|right; exists m; split; [exact K1|now right]]. }
    destruct (Hsplit _ _ Ep) as [(m & Em)|(m & Em & Hin)].
    + left. exists m, k, post. split; [exact Em|]. split; [exact F|]. intros x Hx K. apply (L x Hx). now apply which_axis_spec.
    + right. left. apply in_map_iff in Hin as (k' & [= -> <-] & Hk). split; [|split; [exists k; split; assumption|reflexivity]]. intros x Hx K. apply (L x); [rewrite Em; apply in_app_iff; now right|now apply which_axis_spec].
Qed.

(** sorted() succeeds if all names are axes of the variable and all orders are 1, 0 or -1, and is refused otherwise *)
Theorem C73_accepts : forall V N env (junk : list Z -> V) downward (x : var axis V) pos kw,
  (exists y, sort_call N env junk downward x pos kw = Some y) <->
  ((forall k, In k pos -> exists i, first_axis N (var_axes x) k i) /\ forall k o, In (k, o) kw -> (exists i, first_axis N (var_axes x) k i) /\ good_order o).
Proof.
  intros V N env junk downward x pos kw. unfold sort_call.
  assert (forall k, has_axis N (var_axes x) k = true <-> exists i, first_axis N (var_axes x) k i) as Hh.
  { intros k. unfold has_axis. destruct (which_axis N (var_axes x) k) as [i|] eqn:E; [split; [intros _; exists i; now apply which_axis_spec|reflexivity]|]. split; [discriminate|]. intros [i Hi]. apply which_axis_spec in Hi. congruence. }
  assert (forall o, valid_order o = true <-> good_order o) as Hv by (intros o; unfold valid_order, good_order; rewrite !orb_true_iff, !Z.eqb_eq; tauto).
  destruct (forallb _ _) eqn:E.
  - split; [intros _|intros _; eexists; reflexivity]. rewrite forallb_forall in E. split.
    + intros k Hk. pose proof (E (k, 0)) as K. cbv beta iota in K. apply Hh. apply (andb_prop _ _ (K ltac:(apply in_app_iff; left; apply in_map_iff; now exists k))).
    + intros k o Hk. pose proof (E (k, o)) as K. cbv beta iota in K. destruct (andb_prop _ _ (K ltac:(apply in_app_iff; now right))) as [K1 K2]. split; [now apply Hh|now apply Hv].
  - split; [intros [y H]; discriminate|]. intros [H1 H2]. exfalso. apply not_true_iff_false in E. apply E. apply forallb_forall. intros [k o] Hk. apply andb_true_iff. apply in_app_iff in Hk as [Hk|Hk].
    + apply in_map_iff in Hk as (k' & [= -> <-] & Hk). split; [now apply Hh, H1|reflexivity].
    + destruct (H2 k o Hk) as [K1 K2]. split; [now apply Hh|now apply Hv].
Qed.
Print Assumptions C73_accepts.

(** the axes asked for are sorted as asked, the others are left as they are, and the data go with the coordinates *)
Theorem C73_sorted : forall V N env (junk : list Z -> V) downward (x : var axis V) D pos kw y,
  env_ok env -> responds env x D -> Forall good_axis (var_axes x) -> sort_call N env junk downward x pos kw = Some y ->
  exists inds D', computes env y D' /\ List.length inds = List.length (var_axes x) /\ List.length (var_axes y) = List.length (var_axes x) /\
    (forall p q, picks inds p q -> D' p = D q) /\
    forall i a b l, nth_error (var_axes x) i = Some a -> nth_error (var_axes y) i = Some b -> nth_error inds i = Some l ->
      sliced a l b /\ index_permutation (Z.to_nat (axis_len a)) l /\
      ((forall o, ~ asked N (var_axes x) pos kw i o) -> forall k j, elem l k j -> j = k) /\
      forall o, asked N (var_axes x) pos kw i o ->
        forall k k' j j' v v', elem l k j -> elem l k' j' -> k < k' -> elem (axis_vals a) j v -> elem (axis_vals a) j' v' ->
          (o = 1 \/ (o = 0 /\ downward a = false) -> (v <= v')%Q) /\ (o = -1 \/ (o = 0 /\ downward a = true) -> (v' <= v)%Q).
Proof.
  intros V N env junk downward x D pos kw y Henv Hx Hg H. unfold sort_call in H. set (entries := map (fun k => (k, 0)) pos ++ kw) in *.
  destruct (forallb _ entries) eqn:Ev; [|discriminate]. match type of H with context [sort_var env junk x ?t] => set (order := t) in * end. injection H as <-.
  assert (forall i a, nth_error (var_axes x) i = Some a -> exists r, nth_error order i = Some r /\
    match r with Some b => exists o, asked N (var_axes x) pos kw i o /\ b = direction downward a o | None => forall o, ~ asked N (var_axes x) pos kw i o end) as Hord.
  { intros i a Ha. destruct entries as [|e0 l0] eqn:Ee.
    - subst order. rewrite nth_error_map, Ha. eexists. split; [reflexivity|]. exists 0. split; [|reflexivity]. right. right. unfold entries in Ee. apply app_eq_nil in Ee as [E1 E2]. apply map_eq_nil in E1. repeat split; assumption.
    - assert (order = map (fun '(i, a) => option_map (direction downward a) (order_of N (var_axes x) entries i)) (combine (seq 0 (List.length (var_axes x))) (var_axes x))) as -> by (subst order; now rewrite Ee).
      rewrite nth_error_map, nth_error_combine, nth_error_seq, Ha. assert (i < List.length (var_axes x))%nat as Hi by (apply nth_error_Some; congruence). destruct (Nat.ltb_spec i (List.length (var_axes x))); [|lia].
      eexists. split; [reflexivity|]. cbn [Nat.add]. assert (forall o, asked N (var_axes x) pos kw i o <-> order_of N (var_axes x) entries i = Some o) as Hao by (intros o; apply asked_order_of; fold entries; rewrite Ee; discriminate).
      destruct (order_of N (var_axes x) entries i) as [o|]; cbn [option_map]; [exists o; split; [now apply Hao|reflexivity]|]. intros o K. apply Hao in K. discriminate. }
  assert (List.length order = List.length (var_axes x)) as Hlo.
  { subst order. destruct entries; [now rewrite map_length|]. rewrite map_length, combine_length, seq_length. lia. }
  destruct (C32_computed env junk x D order Henv Hx Hg Hlo) as (inds & D' & H1 & H2 & H3 & H4 & H5). exists inds, D'. split; [exact H1|]. split; [exact H2|]. split; [exact H3|]. split; [exact H4|].
  intros i a b l Ha Hb Hl. destruct (Hord i a Ha) as (r & Hr & HR). destruct (H5 i a b r l Ha Hb Hr Hl) as (K1 & K2 & K3). split; [exact K1|]. split; [exact K2|].
  assert (forall o o', asked N (var_axes x) pos kw i o -> asked N (var_axes x) pos kw i o' -> o = o') as Huniq.
  { intros o o' A B. destruct entries as [|e0 l0] eqn:Ee.
    - unfold entries in Ee. apply app_eq_nil in Ee as [E1 E2]. apply map_eq_nil in E1. subst pos kw. destruct A as [(p & ? & ? & A & _)|[(_ & (? & [] & _) & _)|(_ & _ & ->)]]; [destruct p; discriminate|]. destruct B as [(p & ? & ? & B & _)|[(_ & (? & [] & _) & _)|(_ & _ & ->)]]; [destruct p; discriminate|]. reflexivity.
    - assert (map (fun k => (k, 0)) pos ++ kw <> []) as Hne by (fold entries; rewrite Ee; discriminate). apply (asked_order_of N (var_axes x) pos kw i o Hne) in A. apply (asked_order_of N (var_axes x) pos kw i o' Hne) in B. congruence. }
  split.
  - intros Hno. destruct r as [b'|]; [destruct HR as (o & A & _); exfalso; now apply (Hno o)|exact K3].
  - intros o A k k' j j' v v' E1 E2 Hlt E3 E4. destruct r as [b'|]; [|exfalso; now apply (HR o)]. destruct HR as (o' & A' & ->). rewrite (Huniq o' o A' A) in K3. pose proof (K3 k k' j j' v v' E1 E2 Hlt E3 E4) as K. unfold direction in K.
    split; intros [->|[-> E]]; cbn in K; rewrite ?E in K; exact K.
Qed.
Print Assumptions C73_sorted.
(** lat increasing by a positional argument (natural order, upward), lon decreasing by keyword; a later keyword would win *)
Example C73_example :
  env_ok env0 /\ responds env0 blocks table /\ Forall good_axis (var_axes blocks) /\
  (forall k, In k ["lat"%string] -> exists i, first_axis names (var_axes blocks) k i) /\
  (forall k o, In (k, o) [("lon"%string, -1)] -> (exists i, first_axis names (var_axes blocks) k i) /\ good_order o) /\
  look (sort_call names env0 (fun _ => 0) (fun _ => false) blocks ["lat"%string] [("lon"%string, -1)]) [[0; 0]; [0; 2]; [1; 0]] = Some ([2; 3], [2; 0; 12]) /\
  look (sort_call names env0 (fun _ => 0) (fun a => axis_len a =? 2) blocks [] []) [[0; 0]; [0; 2]; [1; 0]] = Some ([2; 3], [10; 12; 0]) /\
  sort_call names env0 (fun _ => 0) (fun _ => false) blocks ["lev"%string] [] = None /\
  sort_call names env0 (fun _ => 0) (fun _ => false) blocks [] [("lon"%string, 2)] = None.
Proof.
  split; [apply env0_ok|]. split; [apply (getable_responds env0 _); exact (proj1 (blocks_holds env0))|]. split; [exact (proj2 (blocks_holds env0))|].
  split; [intros k [<-|[]]; exists 0%nat; now apply which_axis_spec|]. split; [intros k o [[= <- <-]|[]]; split; [exists 1%nat; now apply which_axis_spec|right; right; reflexivity]|].
  vm_compute. repeat split; reflexivity.
Qed.
