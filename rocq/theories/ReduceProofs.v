(** The chunked loop of the reductions computes the aggregate over each fibre. *)
From Coq Require Import ZArith List Bool Lia Permutation QArith_base Qcanon.
From Verif Require Import SortSpec IndexModel IndexSpec IndexProofs ArrModel ViewModel ViewSpec ArrProofs ViewProofs AxisModel AxisSpec AxisProofs
  VarOpsModel VarOpsSpec VarOpsProofs ChunkProofs NumModel NumProofs ReduceModel ReduceSpec FibreProofs LoopProofs RespondProofs.
Import ListNotations.
Open Scope Z_scope.

(** the index lists of the input: everything on the reduced axes, [L] on the others *)
Fixpoint fillin (gone : list bool) (full L : list (list Z)) : list (list Z) :=
  match gone, full with
  | true :: g, f :: full => f :: fillin g full L
  | false :: g, _ :: full => match L with l :: L => l :: fillin g full L | [] => [] end
  | _, _ => []
  end.
Lemma dropped_fillin : forall gone full L, length gone = length full -> length L = length (dropped gone full) -> dropped gone (fillin gone full L) = L.
Proof.
  induction gone as [|[] g IH]; intros [|f full] L H HL; cbn in *; try lia.
  - now destruct L.
  - apply IH; lia.
  - destruct L as [|l L]; [discriminate|]. cbn. f_equal. apply IH; cbn in *; lia.
Qed.
Lemma fillin_Forall2 {A} (R : A -> list Z -> Prop) : forall gone (axes : list A) full L, length gone = length axes -> length full = length axes ->
  Forall2 R (dropped gone axes) L -> Forall2 (fun a f => R a f) axes full -> Forall2 R axes (fillin gone full L).
Proof.
  induction gone as [|[] g IH]; intros [|a axes] full L H HL HR HF; cbn in *; try lia.
  - constructor.
  - inversion HF; subst. cbn. constructor; [assumption|]. apply IH; cbn in *; auto; lia.
  - inversion HF; subst. inversion HR; subst. cbn. constructor; [assumption|]. apply IH; cbn in *; auto; lia.
Qed.
Lemma fillin_gone : forall gone full L i, length L = length (dropped gone full) -> nth_error gone i = Some true -> nth_error (fillin gone full L) i = nth_error full i.
Proof.
  induction gone as [|[] g IH]; intros [|f full] L [|i] HL H; cbn in *; try discriminate; try reflexivity.
  - now apply IH.
  - destruct L as [|l L]; [discriminate|]. cbn. apply IH; [cbn in *; lia|exact H].
Qed.
Lemma fibl_fillin : forall gone full L k, length gone = length full -> length L = length (dropped gone full) -> length k = length L ->
  fibl gone (fillin gone full L) k = fibl gone full k.
Proof.
  induction gone as [|[] g IH]; intros [|f full] L k H HL Hk; cbn in *; try lia; try reflexivity.
  - f_equal. apply IH; lia.
  - destruct L as [|l L]; [discriminate|]. destruct k as [|x k]; [discriminate|]. cbn in *. f_equal. apply IH; lia.
Qed.

Lemma fibre_fibl gone s k : length gone = length s -> position (dropped gone s) k ->
  fibre gone s k = product (fibl gone (map (fun n => arange 0 n 1) s) k).
Proof.
  intros H Hk. unfold fibre, positions. apply filter_product; [now rewrite map_length|].
  rewrite dropped_map. apply Forall2_map_l. eapply Forall2_impl; [|exact Hk]. cbn. intros n x Hx. split.
  - apply increasing_NoDup, increasing_arange.
  - apply elem_In with (k := x). apply elem_arange; [lia|]. repeat split; lia.
Qed.

Lemma fibl_positions : forall gone s k q, length gone = length s -> position (dropped gone s) k ->
  In q (product (fibl gone (map (fun n => arange 0 n 1) s) k)) -> position s q.
Proof.
  induction gone as [|[] g IH]; intros [|n s] k q H Hk Hq; cbn [length] in H; try lia.
  - cbn in Hq. destruct Hq as [<-|[]]. constructor.
  - cbn [map fibl dropped] in *. rewrite product_cons in Hq. apply in_flat_map in Hq as (x & Hx & Hq). apply in_map_iff in Hq as (q' & <- & Hq).
    constructor; [|eapply IH; [lia|exact Hk|exact Hq]]. apply In_elem in Hx as (i & Hi). apply elem_arange in Hi; lia.
  - cbn [map fibl dropped] in *. inversion Hk as [|? x ? k' Hx Hk']; subst. rewrite product_cons in Hq. apply in_flat_map in Hq as (x' & Hx' & Hq).
    apply in_map_iff in Hq as (q' & <- & Hq). destruct Hx' as [<-|[]]. constructor; [exact Hx|]. eapply IH; [lia|exact Hk'|exact Hq].
Qed.

Lemma fibl_length : forall gone J k, length gone = length J -> length k = length (dropped gone J) -> length (fibl gone J k) = length J.
Proof.
  induction gone as [|[] g IH]; intros [|l J] k H Hk; cbn in *; try lia.
  - f_equal. apply IH; lia.
  - destruct k as [|x k]; [discriminate|]. cbn in *. f_equal. apply IH; lia.
Qed.

Section Red.
Context {V W X : Type} (env : axenv) (Henv : env_ok env) (junk : list Z -> V) (MAX : Z) (HMAX : 1 <= MAX).
Notation ops := (axis_ops env).
Notation get := (ViewModel.get ops junk).
Notation var := (ViewModel.var axis V).
Context (axes : list axis) (Hsep : separate axes) (Hgood : Forall good_axis axes) (indices : list nat)
        (Hnd : NoDup indices) (Hlt : Forall (fun i => (i < length axes)%nat) indices)
        (Hpos : forall i a, In i indices -> nth_error axes i = Some a -> 0 < axis_len a).
Definition gone := gone_axes (length axes) indices.
Lemma gone_len : length gone = length axes.
Proof. apply length_gone. Qed.
Lemma gone_nth i : nth_error gone i = Some true -> In i indices.
Proof.
  unfold gone. rewrite nth_error_gone. destruct (Nat.ltb i (length axes)); [|discriminate]. intros H. injection H as H.
  now apply existsb_In.
Qed.

(** the view of the result is answered by the loop over the chunks *)
Lemma accumulate_view_gen (Ro : list (list Z) -> W -> Prop) (Rb : list (list Z) -> X -> Prop) init comb vars block L :
  (forall l l' w, Permutation l l' -> Ro l w -> Ro l' w) -> Ro [] init ->
  (forall l1 w l2 b, Ro l1 w -> l2 <> [] -> Rb l2 b -> Ro (l1 ++ l2) (comb w b)) ->
  (forall c, In c (loop_mem MAX (fillin gone (map (fun a => arange 0 (axis_len a) 1) axes) L) []) -> Forall2 selection axes c ->
     exists data b b', sequence (map (fun x => get (view_of_inds axes c) x true true) vars) = Some data /\
       block data = Some b /\ broadcast b (map zlen (dropped gone c)) = Some b' /\
       forall p, position (map zlen (dropped gone c)) p -> Rb (product (fibl gone c (gather (dropped gone c) p))) (val b' p)) ->
  Forall2 selection (kept_axes axes indices) L ->
  exists r, accumulate env junk MAX vars axes (view_of_inds (kept_axes axes indices) L) init block comb = Some r /\
    shape r = map zlen L /\
    forall p, position (map zlen L) p -> Ro (fibre gone (map axis_len axes) (gather L p)) (val r p).
Proof.
  intros H1 H2 H3 H4 HL. rewrite kept_dropped in *. fold gone in HL |- *.
  set (full := map (fun a => arange 0 (axis_len a) 1) axes).
  assert (length full = length axes) as Hfl by (unfold full; apply map_length).
  assert (length L = length (dropped gone axes)) as HLl by (symmetry; eapply Forall2_len, HL).
  assert (length L = length (dropped gone full)) as HLf by (rewrite HLl; apply dropped_length; now symmetry).
  set (J := fillin gone full L).
  assert (dropped gone J = L) as EJ by (apply dropped_fillin; [rewrite gone_len; lia|exact HLf]).
  assert (full_inds axes gone J) as HJ.
  { split.
    - apply (Forall2_intro_nth _). 
      + pose proof (fillin_Forall2 (fun _ _ => True) gone axes full L gone_len Hfl) as K. symmetry.
        assert (Forall2 (fun (_ : axis) (_ : list Z) => True) axes J) as K'.
        { apply K; [clear -HL; induction HL; constructor; auto|]. clear -Hfl. unfold full in *. clear. induction axes; constructor; auto. }
        symmetry. eapply Forall2_len, K'.
      + intros i a l Ha Hl. destruct (nth_error gone i) as [[]|] eqn:Eg.
        * unfold J in Hl. rewrite fillin_gone in Hl by assumption. unfold full in Hl. rewrite nth_error_map, Ha in Hl. cbn in Hl. injection Hl as <-.
          pose proof (Hpos i a (gone_nth i Eg) Ha) as Hp. split.
          { intros E. pose proof (zlen_arange (axis_len a) ltac:(lia)) as K. rewrite E in K. cbn in K. lia. }
          split; [|apply increasing_arange]. apply Forall_forall. intros x Hx. apply In_elem in Hx as (k & Hk). apply elem_arange in Hk; lia.
        * pose proof (nth_error_dropped gone J i Eg) as K1. rewrite EJ, Hl in K1. pose proof (nth_error_dropped gone axes i Eg) as K2. rewrite Ha in K2.
          exact (Forall2_nth_error _ _ _ _ _ _ HL K2 K1).
        * exfalso. apply nth_error_None in Eg. rewrite gone_len in Eg. assert (i < length axes)%nat by (apply nth_error_Some; congruence). lia.
    - intros i a l Hg Ha Hl. unfold J in Hl. rewrite fillin_gone in Hl by assumption. unfold full in Hl. rewrite nth_error_map, Ha in Hl. cbn in Hl.
      now injection Hl as <-. }
  destruct (accumulate_spec env Henv junk MAX HMAX axes Hsep Hgood gone gone_len J HJ Ro Rb init comb vars block H1 H2 H3 H4) as (r & Hr & Hs & Hv).
  rewrite EJ in *. exists r. split; [exact Hr|]. split; [exact Hs|]. intros p Hp. specialize (Hv p Hp).
  assert (position (dropped gone (map axis_len axes)) (gather L p)) as Hg.
  { apply gather_position with (ns := dropped gone (map axis_len axes)); [|exact Hp]. rewrite dropped_map. apply Forall2_map_l.
    eapply Forall2_impl; [|exact HL]. intros a l (_ & K & _). exact K. }
  rewrite fibre_fibl; [|rewrite map_length; apply gone_len|exact Hg].
  rewrite map_map. fold full. unfold J in Hv. rewrite fibl_fillin in Hv; [exact Hv|rewrite gone_len; lia|exact HLf|].
  pose proof (Forall2_len _ _ _ Hg) as K. rewrite dropped_map, map_length in K. lia.
Qed.

Lemma accumulate_view (Ro : list (list Z) -> W -> Prop) (Rb : list (list Z) -> X -> Prop) init comb vars block :
  (forall l l' w, Permutation l l' -> Ro l w -> Ro l' w) -> Ro [] init ->
  (forall l1 w l2 b, Ro l1 w -> l2 <> [] -> Rb l2 b -> Ro (l1 ++ l2) (comb w b)) ->
  (forall c, Forall2 selection axes c ->
     exists data b b', sequence (map (fun x => get (view_of_inds axes c) x true true) vars) = Some data /\
       block data = Some b /\ broadcast b (map zlen (dropped gone c)) = Some b' /\
       forall p, position (map zlen (dropped gone c)) p -> Rb (product (fibl gone c (gather (dropped gone c) p))) (val b' p)) ->
  forall L, Forall2 selection (kept_axes axes indices) L ->
  exists r, accumulate env junk MAX vars axes (view_of_inds (kept_axes axes indices) L) init block comb = Some r /\
    shape r = map zlen L /\
    forall p, position (map zlen L) p -> Ro (fibre gone (map axis_len axes) (gather L p)) (val r p).
Proof. intros H1 H2 H3 H4 L HL. apply (accumulate_view_gen Ro Rb); auto. Qed.
End Red.

(** aggregation of one variable: the block is np_reduce of [pre] of the data *)
Section One.
Context {V W X : Type} (env : axenv) (Henv : env_ok env) (junk : list Z -> V) (MAX : Z) (HMAX : 1 <= MAX).
Notation ops := (axis_ops env).
Notation get := (ViewModel.get ops junk).
Notation var := (ViewModel.var axis V).
Context (x : var) (D : list Z -> V) (Hx : responds env x D) (Hgood : Forall good_axis (var_axes x)) (indices : list nat)
        (Hnd : NoDup indices) (Hlt : Forall (fun i => (i < length (var_axes x))%nat) indices)
        (Hpos : forall i a, In i indices -> nth_error (var_axes x) i = Some a -> 0 < axis_len a).

Lemma block_reduced (agg : list X -> X) (h : list Z -> X) (a : arr X) (R : list X -> X -> Prop) c :
  (forall v, R [v] v) -> (forall ls vs, Forall2 R ls vs -> R (concat ls) (agg vs)) ->
  Forall2 selection (var_axes x) c -> array_is a (map zlen c) (fun p => h (gather c p)) ->
  exists b', let g := gone_axes (length (var_axes x)) indices in
    broadcast (np_reduce agg a indices) (map zlen (dropped g c)) = Some b' /\
    forall p, position (map zlen (dropped g c)) p -> R (map h (product (fibl g c (gather (dropped g c) p)))) (val b' p).
Proof.
  intros R1 R2 Hc (Hs & Hv). pose proof (Forall2_len _ _ _ Hc) as Hl.
  destruct (np_reduce_spec agg R indices a R1 R2 Hnd) as [Es Ev].
  { rewrite Hs, map_length, <- Hl. exact Hlt. }
  rewrite Hs, map_length, <- Hl in Es, Ev. set (g := gone_axes (length (var_axes x)) indices) in *.
  assert (length g = length c) as Hg by (unfold g; rewrite length_gone; exact Hl).
  rewrite dropped_map in Es, Ev. destruct (broadcast_same _ _ Es) as (b' & Hb' & _ & Hbv). exists b'. cbv zeta. split; [exact Hb'|].
  intros p Hp. rewrite Hbv by exact Hp. specialize (Ev p). rewrite map_map in Ev.
  assert (map (val a) (product (fibl g (map (fun l => arange 0 (zlen l) 1) c) p)) =
          map h (product (fibl g c (gather (dropped g c) p)))) as E.
  { rewrite <- (map_gather_fibl g c p Hg Hp), map_map. apply map_ext_in. intros q Hq. rewrite Hv; [reflexivity|].
    eapply (fibl_positions g (map zlen c) p); [now rewrite map_length|now rewrite dropped_map|]. now rewrite map_map. }
  rewrite E in Ev. apply Ev. pose proof (Forall2_len _ _ _ Hp). lia.
Qed.

Lemma chunk_reduced (agg : list X -> X) (pre : V -> X) (R : list X -> X -> Prop) c :
  (forall v, R [v] v) -> (forall ls vs, Forall2 R ls vs -> R (concat ls) (agg vs)) ->
  Forall2 selection (var_axes x) c ->
  exists a b', get (view_of_inds (var_axes x) c) x true true = Some a /\
    let g := gone_axes (length (var_axes x)) indices in
    broadcast (np_reduce agg (map_arr pre a) indices) (map zlen (dropped g c)) = Some b' /\
    forall p, position (map zlen (dropped g c)) p -> R (map (fun q => pre (D q)) (product (fibl g c (gather (dropped g c) p)))) (val b' p).
Proof.
  intros R1 R2 Hc. destruct (responds_part env Henv junk x D c Hx Hc) as (a & Ha & Hs & Hv). exists a.
  destruct (block_reduced agg (fun q => pre (D q)) (map_arr pre a) R c R1 R2 Hc) as (b' & Hb).
  { split; [exact Hs|]. intros p Hp. cbn [val map_arr]. now rewrite Hv. }
  exists b'. split; [exact Ha|exact Hb].
Qed.

Lemma accumulate1_view (agg : list X -> X) (pre : V -> X) (block : arr V -> option (arr X)) (init : W) (comb : W -> X -> W) (R : list X -> X -> Prop) (Ro : list X -> W -> Prop) :
  (forall v, R [v] v) -> (forall ls vs, Forall2 R ls vs -> R (concat ls) (agg vs)) ->
  (forall l l' w, Permutation l l' -> Ro l w -> Ro l' w) -> Ro [] init ->
  (forall l1 w l2 b, Ro l1 w -> l2 <> [] -> R l2 b -> Ro (l1 ++ l2) (comb w b)) ->
  (forall a, block a = Some (np_reduce agg (map_arr pre a) indices)) ->
  forall L, Forall2 selection (kept_axes (var_axes x) indices) L ->
  exists r, accumulate1 env junk MAX x (view_of_inds (kept_axes (var_axes x) indices) L) init block comb = Some r /\
    shape r = map zlen L /\
    forall p, position (map zlen L) p ->
      Ro (map (fun q => pre (D q)) (fibre (gone_axes (length (var_axes x)) indices) (var_shape x) (gather L p))) (val r p).
Proof.
  intros R1 R2 O1 O2 O3 Hblock L HL. unfold accumulate1. destruct Hx as [Hsep _].
  apply (accumulate_view env Henv junk MAX HMAX (var_axes x) Hsep Hgood indices Hpos
           (fun l w => Ro (map (fun q => pre (D q)) l) w) (fun l b => R (map (fun q => pre (D q)) l) b)); auto.
  - intros l l' w Hp. apply O1. now apply Permutation_map.
  - intros l1 w l2 b H1 Hne H2. rewrite map_app. apply O3; auto. destruct l2; [congruence|discriminate].
  - intros c Hc. destruct (chunk_reduced agg pre R c R1 R2 Hc) as (a & b' & Ha & Hb & HR). exists [a], (np_reduce agg (map_arr pre a) indices), b'.
    cbn [map sequence]. rewrite Ha. split; [reflexivity|]. split; [apply Hblock|]. split; [exact Hb|exact HR].
Qed.
End One.
