(** The statements of VarOpsProps.v, from VarOpsProofs.v *)
From Coq Require Import ZArith List Bool Lia QArith_base Permutation.
From Verif Require Import SortSpec TimeSearchSpec IndexModel IndexSpec ArrModel ViewModel ViewSpec ArrProofs ViewProofs AxisModel AxisSpec AxisProofs
  VarOpsModel VarOpsSpec VarOpsProofs.
Import ListNotations.
Open Scope Z_scope.

Lemma slice_statement {V} env (junk : list Z -> V) (x : var axis V) D args sls inds :
  env_ok env -> holds env x D ->
  completed args (length (var_axes x)) sls ->
  Forall2 (fun '(n, s) l => index_of_slice s n l) (combine (var_shape x) sls) inds ->
  exists y D', slice_var env junk x args = Some y /\
    Forall2 (fun '(a, b) l => sliced a l b) (combine (var_axes x) (var_axes y)) inds /\
    var_shape y = map zlen inds /\ getable env y D' /\
    (forall p q, picks inds p q -> D' p = D q) /\
    (Forall (@NoDup Z) inds -> holds env y D').
Proof.
  intros Henv Hx Hc Hi. destruct (slice_total env Henv junk x D args sls inds Hx Hc Hi) as (y & H1 & H2 & H3 & H4 & H5).
  exists y, (fun p => D (gather inds p)). repeat (split; [assumption|]). split; [|exact H5].
  intros p q Hpq. apply picks_position in Hpq as [_ ->]. reflexivity.
Qed.

Lemma nested_statement {V} env (junk : list Z -> V) (x : var axis V) D argss indss :
  env_ok env -> holds env x D -> np_slices (var_shape x) argss indss ->
  (forall inds, In inds (removelast indss) -> Forall (@NoDup Z) inds) ->
  exists y r, slice_all env junk x argss = Some y /\ var_get env junk y = Some r /\
    shape r = last (map (map zlen) indss) (var_shape x) /\
    forall p q, position (shape r) p -> comes_from indss p q -> val r p = D q.
Proof.
  intros Henv Hx Hn Hd. destruct (nested_slices env Henv junk argss x D indss Hx Hn Hd) as (y & D' & H1 & H2 & H3 & H4).
  destruct (getable_var_get env junk y D' H2) as (r & Hr & Hs & Hv).
  exists y, r. split; [exact H1|]. split; [exact Hr|]. split; [congruence|]. intros p q Hp Hc. rewrite Hs in Hp. rewrite Hv by exact Hp. now apply H4.
Qed.

Lemma transpose_statement {V} env (junk : list Z -> V) (x : var axis V) D axes :
  env_ok env -> getable env x D ->
  axes <> [] -> NoDup axes -> Forall (fun i => (i < length (var_axes x))%nat) axes ->
  let order := axes ++ filter (fun i => negb (existsb (Nat.eqb i) axes)) (seq 0 (length (var_axes x))) in
  exists y D', transpose_var env junk x axes = Some y /\
    Permutation order (seq 0 (length (var_axes x))) /\
    Forall2 (fun i b => nth_error (var_axes x) i = Some b) order (var_axes y) /\
    getable env y D' /\ (Forall good_axis (var_axes x) -> holds env y D') /\
    forall p, position (var_shape x) p -> D' (map (coordinate p) order) = D p.
Proof.
  intros Henv Hx Hne Hnd Hlt order. destruct (transpose_some env junk x axes Hne Hlt) as [y Hy].
  destruct (transpose_holds env Henv junk x D axes y Hx Hnd Hy) as (H1 & H2 & D' & [H3 H3'] & H4). exists y, D'. auto 10.
Qed.

Lemma refill_dropped gone ns p : Forall2 (fun g n => g = true -> n = 1) gone ns -> position ns p -> refill 0 gone (dropped gone p) = p.
Proof.
  intros H. revert p. induction H as [|g n gone ns Hg _ IH]; intros p Hp; inversion Hp; subst; [reflexivity|].
  destruct g; cbn; rewrite IH by assumption; [|reflexivity]. specialize (Hg eq_refl). f_equal. lia.
Qed.

Lemma squeeze_statement {V} env (junk : list Z -> V) (x : var axis V) D iaxes :
  getable env x D ->
  let y := squeeze_var env junk x iaxes in
  exists gone D', length gone = length (var_axes x) /\
    (forall i a, nth_error (var_axes x) i = Some a ->
       nth_error gone i = Some true <-> (iaxes = [] \/ In i iaxes) /\ axis_len a = 1) /\
    var_axes y = dropped gone (var_axes x) /\
    getable env y D' /\ (Forall good_axis (var_axes x) -> holds env y D') /\
    forall p, position (var_shape x) p -> D' (dropped gone p) = D p.
Proof.
  intros Hx y. destruct (squeeze_holds env junk x D iaxes Hx) as [H1 H2]. fold y in H1, H2.
  exists (gone_flags x iaxes), (fun q => D (refill 0 (gone_flags x iaxes) q)).
  assert (length (gone_flags x iaxes) = length (var_axes x)) as Hl.
  { unfold gone_flags. rewrite map_length, combine_length, seq_length. lia. }
  assert (forall i a, nth_error (var_axes x) i = Some a ->
       nth_error (gone_flags x iaxes) i = Some true <-> (iaxes = [] \/ In i iaxes) /\ axis_len a = 1) as Hf.
  { intros i a Ha. unfold gone_flags. rewrite nth_error_map, nth_error_combine, nth_error_seq, Ha.
    assert (i < length (var_axes x))%nat as Hi by (apply nth_error_Some; congruence).
    destruct (Nat.ltb_spec i (length (var_axes x))); [|lia]. cbn [option_map Nat.add].
    assert (forall b, Some b = Some true <-> b = true) as E by (intros b; split; congruence). rewrite E, andb_true_iff, Z.eqb_eq.
    assert ((match iaxes with [] => true | _ => existsb (Nat.eqb i) iaxes end) = true <-> iaxes = [] \/ In i iaxes) as ->; [|tauto].
    destruct iaxes as [|k iaxes]; [tauto|]. rewrite existsb_In. split; [auto|]. intros [K|K]; [discriminate|exact K]. }
  split; [exact Hl|]. split; [exact Hf|]. split; [exact H1|]. split; [exact H2|].
  split; [intros Hg; split; [exact H2|]; rewrite H1; apply Forall_forall; intros a Ha; apply (proj1 (Forall_forall _ _) Hg); eapply dropped_In, Ha|].
  intros p Hp. f_equal. eapply refill_dropped; [|exact Hp]. unfold var_shape. apply Forall2_map_r. apply Forall2_intro_nth; [exact Hl|].
  intros i g a Hg Ha ->. now apply (Hf i a Ha) in Hg.
Qed.

Lemma extend_statement {V} env (junk : list Z -> V) (x : var axis V) D pos newaxes :
  env_ok env -> getable env x D -> (pos <= length (var_axes x))%nat ->
  separate newaxes -> (forall a b, In a (var_axes x) -> In b newaxes -> unrelated a b /\ unrelated b a) ->
  let y := extend_var env junk x pos newaxes in
  exists D', var_axes y = firstn pos (var_axes x) ++ newaxes ++ skipn pos (var_axes x) /\
    getable env y D' /\ (Forall good_axis (var_axes x ++ newaxes) -> holds env y D') /\
    forall p1 p2 new, length p1 = pos -> length new = length newaxes -> D' (p1 ++ new ++ p2) = D (p1 ++ p2).
Proof.
  intros Henv Hx Hpos Hs Hu y. destruct (extend_holds env Henv junk x D pos newaxes Hx Hpos Hs Hu) as [H1 H2].
  exists (fun q => D (firstn pos q ++ skipn (pos + length newaxes) q)). split; [reflexivity|]. split; [exact H1|]. split; [intros Hg; apply Forall_app in Hg as [Hg1 Hg2]; now apply H2|].
  intros p1 p2 new <- <-. f_equal. f_equal.
  - rewrite firstn_app, Nat.sub_diag, firstn_all. cbn. now rewrite app_nil_r.
  - rewrite app_assoc, <- app_length, skipn_app, skipn_all, Nat.sub_diag. reflexivity.
Qed.

Lemma replace_statement {V} env (junk : list Z -> V) (x : var axis V) D newaxes :
  getable env x D -> separate newaxes ->
  (map axis_len newaxes = var_shape x ->
     exists y, replace_axes env junk x newaxes = Some y /\ var_axes y = newaxes /\ getable env y D) /\
  (map axis_len newaxes <> var_shape x -> replace_axes env junk x newaxes = None).
Proof.
  intros Hx Hs.
  assert (Nat.eqb (length newaxes) (length (var_axes x)) && forallb (fun '(a, b) => axis_len a =? axis_len b) (combine newaxes (var_axes x)) = true <->
          map axis_len newaxes = var_shape x) as E.
  { unfold var_shape. generalize (var_axes x) as axs. induction newaxes as [|a news IH]; intros [|b axs]; cbn; try (split; [discriminate|discriminate]); [tauto|].
    assert (separate news) as Hs' by (intros i j c d Hc Hd Hn; apply (Hs (S i) (S j) c d Hc Hd); lia).
    specialize (IH Hs' axs). rewrite andb_true_iff in *. rewrite andb_true_iff. rewrite Z.eqb_eq. split.
    - intros (K1 & K2 & K3). f_equal; [exact K2|]. apply IH. auto.
    - intros [= K1 K2]. apply IH in K2 as [K2 K3]. auto. }
  split.
  - intros H. pose proof H as H'. apply E in H. unfold replace_axes. rewrite H. eexists. split; [reflexivity|]. split; [reflexivity|].
    assert (exists y, replace_axes env junk x newaxes = Some y) as [y Hy] by (unfold replace_axes; rewrite H; eauto).
    destruct (replace_getable env junk x D newaxes y Hx Hs Hy) as (_ & _ & G). unfold replace_axes in Hy. rewrite H in Hy. injection Hy as <-. exact G.
  - intros H. unfold replace_axes. destruct (_ && _) eqn:K; [|reflexivity]. exfalso. apply H, E. reflexivity.
Qed.

Lemma sorted_statement {V} env (junk : list Z -> V) (x : var axis V) D order :
  env_ok env -> holds env x D -> length order = length (var_axes x) ->
  let y := sort_var env junk x order in
  exists inds D', holds env y D' /\ var_shape y = var_shape x /\
    (forall p q, picks inds p q -> D' p = D q) /\
    length inds = length (var_axes x) /\ length (var_axes y) = length (var_axes x) /\
    forall i a b o l, nth_error (var_axes x) i = Some a -> nth_error (var_axes y) i = Some b ->
      nth_error order i = Some o -> nth_error inds i = Some l ->
      sliced a l b /\ index_permutation (Z.to_nat (axis_len a)) l /\
      match o with
      | None => forall k j, elem l k j -> j = k
      | Some reverse => forall k k' j j' v v', elem l k j -> elem l k' j' -> k < k' ->
          elem (axis_vals a) j v -> elem (axis_vals a) j' v' -> if reverse then (v' <= v)%Q else (v <= v')%Q
      end.
Proof.
  intros Henv Hx Ho y. destruct (sort_holds env Henv junk x D order Hx Ho) as (H1 & H2 & H3). fold y in H1, H2, H3.
  set (inds := map (fun '(a, o) => sort_index env a o) (combine (var_axes x) order)) in *.
  exists inds, (fun p => D (gather inds p)). split; [exact H1|]. split; [exact H2|]. split; [|split; [|split]].
  - intros p q Hpq. apply picks_position in Hpq as [_ ->]. reflexivity.
  - unfold inds. rewrite map_length, combine_length. lia.
  - unfold y, sort_var. cbn. rewrite map_length, combine_length. lia.
  - intros i a b o l Ha Hb Hoi Hl.
    assert (nth_error (combine (var_axes x) (var_axes y)) i = Some (a, b)) as Hab by (now rewrite nth_error_combine, Ha, Hb).
    pose proof (Forall2_nth_error _ _ _ _ _ _ H3 Hab Hl) as Hs. cbn in Hs. split; [exact Hs|].
    unfold inds in Hl. rewrite nth_error_map, nth_error_combine, Ha, Hoi in Hl. cbn in Hl. injection Hl as <-.
    destruct Hx as [_ Hg]. pose proof (proj1 (Forall_forall _ _) Hg a (nth_error_In _ _ Ha)) as G.
    destruct o as [r|]; cbn [sort_index].
    + split; [apply (argsort_perm env Henv a r G)|]. intros k k' j j' v v'. apply argsort_sorted. exact Henv.
    + split; [|intros k j H; now apply elem_arange01 in H]. unfold index_permutation.
      rewrite (is_arange (map Z.of_nat (seq 0 (Z.to_nat (axis_len a)))) (axis_len a)); [reflexivity|apply axis_len_nonneg| |].
      * rewrite IndexProofs.zlen_map. unfold zlen. rewrite seq_length. pose proof (axis_len_nonneg a). lia.
      * intros k j H. apply IndexProofs.elem_map in H as (n & [Hn0 Hn] & ->). rewrite nth_error_seq in Hn.
        destruct (Nat.ltb_spec (Z.to_nat k) (Z.to_nat (axis_len a))); [|discriminate]. injection Hn as <-. lia.
Qed.

Lemma slices_by_index l inds : map (fun '(n, sl) => slice_index sl n) l = map Some inds ->
  Forall2 (fun '(n, sl) l => index_of_slice sl n l) l inds.
Proof.
  revert inds. induction l as [|[n sl] l IH]; intros [|ind inds] H; try discriminate; [constructor|].
  cbn in H. injection H as H1 H2. constructor; [exact (slice_index_spec (fun _ => tt) sl n ind H1)|now apply IH].
Qed.
