(** Axes that are concatenated, and how a segment is found in the whole. *)
From Coq Require Import ZArith List Bool Lia QArith_base.
From Verif Require Import CalModel TimeSearchModel TimeSearchSpec SortSpec IndexModel IndexSpec IndexProofs ArrModel ArrProofs ViewModel ViewSpec ViewProofs
     AxisModel AxisSpec AxisProofs VarOpsModel VarOpsSpec VarOpsProofs ReduceModel ReduceSpec ChunkProofs LoopProofs RespondProofs UfuncSpec UfuncProofs UfuncView
     StencilModel StencilProofs DiffProofs IntgrProofs ConcatModel ConcatSpec ConcatProofs.
Import ListNotations.
Open Scope Z_scope.

Lemma list_ext_len {A} (l l' : list A) : zlen l = zlen l' -> (forall k x y, elem l k x -> elem l' k y -> x = y) -> l = l'.
Proof.
  intros Hl H. apply list_ext. intros k x. split; intros Hx; pose proof (elem_lt _ _ _ Hx) as Hr.
  - destruct (elem_ex l' k) as (y & Hy); [lia|]. now rewrite (H k x y Hx Hy).
  - destruct (elem_ex l k) as (y & Hy); [lia|]. now rewrite <- (H k y x Hy Hx).
Qed.
Definition interval (o n : Z) : list Z := arange o (o + n) 1.
Lemma pick_between {A} (d : A) l1 l l2 : pick d (l1 ++ l ++ l2) (interval (zlen l1) (zlen l)) = l.
Proof.
  pose proof (zlen_nonneg l1). pose proof (zlen_nonneg l). pose proof (zlen_nonneg l2). unfold interval.
  apply list_ext_len.
  - rewrite zlen_pick, zlen_arange1; lia.
  - intros k x y Hx Hy. apply elem_pick in Hx as (i & Hi & Hx).
    + apply elem_arange1 in Hi as [-> Hk]. apply elem_app in Hx as [Hx|[_ Hx]]; [apply elem_lt in Hx; lia|].
      apply elem_app in Hx as [Hx|[Hx _]]; [|lia]. replace (zlen l1 + k - zlen l1) with k in Hx by lia. eapply elem_fun; eassumption.
    + apply in_range_arange; [lia|]. unfold zlen in *. rewrite !app_length. lia.
Qed.

(** [seg] is the part of [whole] that starts at [o] *)
Definition segment (whole : axis) (o : Z) (seg : axis) : Prop :=
  let l := interval o (axis_len seg) in
  0 <= o /\ o + axis_len seg <= axis_len whole /\
  match whole, seg with
  | Coord c, Coord e => comparable (c_class e) (c_class c) = true /\ may_follow whole seg /\ c_vals e = pick 0%Q (c_vals c) l
  | NonCoord m, NonCoord n => may_follow whole seg /\ n_rows n = pick [] (n_rows m) l
  | Time s, Time t => may_follow whole seg /\ t_dates t = pick date0 (t_dates s) l
  | _, _ => False
  end.

Section Env.
Context (env : axenv) (Henv : env_ok env).

Lemma close_segment v o e ks : separated v -> 0 <= o -> o + e <= zlen v -> 0 <= e -> in_range (zlen v) ks -> zlen (pick 0%Q v (interval o e)) = zlen (pick 0%Q v ks) ->
  (forall k p q, elem (pick 0%Q v (interval o e)) k p -> elem (pick 0%Q v ks) k q -> np_close p q \/ np_close q p) -> part o e ks = arange 0 e 1.
Proof.
  intros Hs Ho He H0 Hk El Hc. rewrite !zlen_pick in El. unfold interval in *. rewrite zlen_arange1 in El by lia.
  assert (ks = arange o (o + e) 1) as ->.
  { apply list_ext_len; [rewrite zlen_arange1 by lia; lia|]. intros k x y Hx Hy. apply elem_arange1 in Hy as [-> Hy].
    assert (in_range (zlen v) (arange o (o + e) 1)) as Hr by (apply in_range_arange; lia).
    assert (0 <= x < zlen v) as Hxr. { unfold in_range in Hk. rewrite Forall_forall in Hk. apply Hk. eapply elem_In, Hx. }
    destruct (elem_ex v x Hxr) as (w & Hw). destruct (elem_ex v (o + k)) as (w' & Hw'); [lia|].
    assert (elem (pick 0%Q v ks) k w) as E1 by (apply elem_pick; [exact Hk|]; eauto).
    assert (elem (pick 0%Q v (arange o (o + e) 1)) k w') as E2 by (apply elem_pick; [exact Hr|]; exists (o + k); split; [apply elem_arange1; lia|exact Hw']).
    destruct (Hc k w' w E2 E1) as [C|C].
    - symmetry. exact (separated_elem v _ _ _ _ Hs Hw' Hw C).
    - exact (separated_elem v _ _ _ _ Hs Hw Hw' C). }
  rewrite <- pos_part by exact H0. pose proof (split_at o e (arange o (o + e) 1)) as K.
  rewrite pos_part by exact H0. apply is_arange; [exact H0| |].
  - unfold part. rewrite zlen_map. assert (filter (fun k => (o <=? k) && (k <? o + e)) (arange o (o + e) 1) = arange o (o + e) 1) as ->; [|rewrite zlen_arange1; lia].
    clear -H0. assert (forall l, (forall k, In k l -> o <= k < o + e) -> filter (fun k => (o <=? k) && (k <? o + e)) l = l) as K.
    { induction l as [|x l IH]; intros H; [reflexivity|]. cbn [filter]. specialize (H x (or_introl eq_refl)) as Hx. destruct (Z.leb_spec o x); [|lia]. destruct (Z.ltb_spec x (o + e)); [|lia].
      cbn. f_equal. apply IH. intros k Hk. apply H. now right. }
    apply K. intros k Hk. now apply In_arange1.
  - intros k x Hx. unfold part in Hx. apply elem_map in Hx as (y & Hy & ->).
    assert (filter (fun k => (o <=? k) && (k <? o + e)) (arange o (o + e) 1) = arange o (o + e) 1) as E.
    { clear -H0. assert (forall l, (forall k, In k l -> o <= k < o + e) -> filter (fun k => (o <=? k) && (k <? o + e)) l = l) as K.
      { induction l as [|x l IH]; intros H; [reflexivity|]. cbn [filter]. specialize (H x (or_introl eq_refl)) as Hx. destruct (Z.leb_spec o x); [|lia]. destruct (Z.ltb_spec x (o + e)); [|lia].
        cbn. f_equal. apply IH. intros k Hk. apply H. now right. }
      apply K. intros k' Hk. now apply In_arange1. }
    rewrite E in Hy. apply elem_arange1 in Hy. lia.
Qed.

Lemma segment_map whole o seg ks b : good_axis whole -> tight_axis seg -> segment whole o seg -> in_range (axis_len whole) ks ->
  sliced whole ks b -> axis_map_to env seg b = Some (part o (axis_len seg) ks).
Proof.
  intros Gw [Gs Ts] (Ho & He & Hseg) Hks Hb. pose proof (axis_len_nonneg seg) as Hn0.
  assert (in_range (axis_len whole) (interval o (axis_len seg))) as Hir by (apply in_range_arange; lia).
  assert (NoDup (interval o (axis_len seg))) as Hnd by apply NoDup_arange1.
  destruct whole as [c|m|s], seg as [e|n|t], b as [b|b|b]; try (cbn in Hseg, Hb; tauto).
  - destruct Hb as (B1 & B2 & B3 & B4 & B5 & B6 & B7). destruct Hseg as (C1 & C2 & C3). cbn [axis_len] in *.
    assert ((if comparable (c_class e) (axis_class (Coord b))
       then if axis_eq (Coord e) (Coord b) then Some (arange 0 (zlen (c_vals e)) 1)
            else SortModel.map_to (c_vals e) (axis_vals (Coord b)) (c_rtol e)
       else None) = Some (part o (zlen (c_vals e)) ks)) as K.
    { cbn [axis_class axis_vals axis_eq]. rewrite B2, C1. destruct (coord_eq e b) eqn:Ec.
      - f_equal. symmetry. apply coord_eq_close in Ec as [El Ec]. apply (close_segment (c_vals c)); auto; [apply Gw| |]; rewrite <- C3, <- B5; [exact El|].
        intros k p q Hp Hq. destruct Ec as [Ec|Ec]; [left|right]; eapply Ec; eassumption.
      - destruct Gs as (Gs1 & _ & Gr). destruct (MapToProofs.map_to_spec (c_vals e) (c_vals b) (c_rtol e) (separated_distinct _ Gs1)) as (ind & E & M).
        rewrite E. f_equal. rewrite B5 in M. rewrite C3 in M at 1. rewrite <- pos_part by exact Hn0.
        apply (matches_pos (c_vals c) _ (c_rtol e) ks ind (proj1 Gw) Gr Ts Hir Hnd Hks M). }
    cbn [axis_map_to]. unfold coord_map_to. cbn [may_follow] in C2. rewrite B1, B3. destruct (c_kind c), (c_kind e); try tauto; try exact K; rewrite C2, Z.eqb_refl; exact K.
  - destruct Hb as (B1 & B2 & B3). destruct Hseg as ((C1 & C2) & C3). cbn [axis_map_to axis_len] in *. unfold noncoord_map_to.
    rewrite B1, B2, C1, C2, prefix_refl, common_keys_self. destruct Gw as (G1 & G2 & G3). rewrite C2 in *.
    destruct (n_keys n) as [|k0 kk] eqn:Ek; [congruence|]. rewrite <- Ek in *.
    assert (forall rows, Forall (fun r => length r = length (n_keys n)) rows -> map (pick_keys (n_keys n) (n_keys n)) rows = rows) as Hp.
    { induction 1 as [|r rows Hr _ IH]; [reflexivity|]. cbn. rewrite IH, pick_keys_self by exact Hr. reflexivity. }
    assert (forall l, in_range (zlen (n_rows m)) l -> Forall (fun r => length r = length (n_keys n)) (pick [] (n_rows m) l)) as Hq.
    { intros l Hl. apply Forall_forall. intros r Hr. apply In_elem in Hr as (k & Hr). apply elem_pick in Hr as (i & _ & Hr); [|exact Hl].
      rewrite Forall_forall in G3. apply G3. eapply elem_In. exact Hr. }
    rewrite B3. rewrite (Hp (n_rows n)) by (rewrite C3; now apply Hq). rewrite (Hp (pick [] (n_rows m) ks)) by now apply Hq.
    f_equal. rewrite <- pos_part by exact Hn0. etransitivity; [|apply (rows_pos (n_rows m) (interval o (zlen (n_rows n))) ks G1 Hir Hnd Hks)]. now rewrite <- C3.
  - destruct Hb as (B1 & B2 & B3 & B4 & B5 & B6 & B7). destruct Hseg as ((C1 & C2) & C3). cbn [axis_len] in *.
    destruct (time_axis_map_to env Henv t b Gs) as (ind & E & M); [congruence|rewrite B5, C2; apply mask_sub_refl|]. rewrite E. f_equal.
    rewrite B6, C3, !project_pick in M by assumption. destruct Gw as (_ & _ & _ & _ & Gnd & _). rewrite C2 in Gnd.
    assert (zlen (map (project (t_mask t)) (t_dates s)) = zlen (t_dates s)) as EL by (unfold zlen; now rewrite map_length).
    rewrite <- pos_part by exact Hn0.
    apply (mapped_pos (records (t_mask t) s) (interval o (zlen (t_dates t))) ks ind Gnd); unfold records; rewrite ?EL; assumption || (rewrite <- C3 at 1; exact M) || idtac.
Qed.

(** *** the whole *)
Lemma prefix_antisym : forall c e, prefix c e = true -> prefix e c = true -> c = e.
Proof.
  induction c as [|x c IH]; intros [|y e] H1 H2; cbn in *; try congruence. apply andb_prop in H1 as [H1%Z.eqb_eq H1'], H2 as [_ H2']. f_equal; [exact H1|]. now apply IH.
Qed.
Lemma common_class_first c cs : Forall (fun e => prefix c e = true) (c :: cs) -> common_class (c :: cs) = Some c.
Proof.
  unfold common_class. generalize (c :: cs) as l. induction l as [|e l IH]; intros H; [reflexivity|]. inversion H as [|? ? He Hl]; subst. cbn [fold_left bind].
  assert ((if prefix e c then e else c) = c) as -> by (destruct (prefix e c) eqn:E; [now apply prefix_antisym|reflexivity]). rewrite He. now apply IH.
Qed.
Lemma may_follow_refl a : may_follow a a.
Proof. destruct a as [c|n|t]; cbn; [destruct (c_kind c); reflexivity || exact Logic.I|auto|auto]. Qed.
Definition total_len (l : list axis) : Z := fold_right Z.add 0 (map axis_len l).
Lemma coords_of c0 : forall segs, Forall (may_follow (Coord c0)) segs -> exists cs, all_coords segs = Some cs /\ segs = map Coord cs.
Proof.
  unfold all_coords. induction 1 as [|a l H _ (cs & E & ->)]; [exists []; auto|]. destruct a as [c| |]; cbn in H; try tauto. exists (c :: cs). cbn [map sequence]. cbn in E. rewrite E. auto.
Qed.
Lemma noncoords_of c0 : forall segs, Forall (may_follow (NonCoord c0)) segs -> exists cs, all_noncoords segs = Some cs /\ segs = map NonCoord cs.
Proof.
  unfold all_noncoords. induction 1 as [|a l H _ (cs & E & ->)]; [exists []; auto|]. destruct a as [|c|]; cbn in H; try tauto. exists (c :: cs). cbn [map sequence]. cbn in E. rewrite E. auto.
Qed.
Lemma times_of c0 : forall segs, Forall (may_follow (Time c0)) segs -> exists cs, all_times segs = Some cs /\ segs = map Time cs.
Proof.
  unfold all_times. induction 1 as [|a l H _ (cs & E & ->)]; [exists []; auto|]. destruct a as [| |c]; cbn in H; try tauto. exists (c :: cs). cbn [map sequence]. cbn in E. rewrite E. auto.
Qed.
Lemma map_app_split {A B} (f : A -> B) l before x after : map f l = before ++ x :: after -> exists b y a, l = b ++ y :: a /\ before = map f b /\ x = f y /\ after = map f a.
Proof.
  revert l. induction before as [|z before IH]; intros [|w l] E; try discriminate; cbn in E.
  - injection E as <- <-. exists [], w, l. auto.
  - injection E as <- E. destruct (IH l E) as (b & y & a & -> & -> & -> & ->). exists (w :: b), y, a. auto.
Qed.
Lemma total_concat {A B} (mk : A -> axis) (f : A -> list B) l : (forall x, axis_len (mk x) = zlen (f x)) -> total_len (map mk l) = zlen (List.concat (map f l)).
Proof.
  intros H. induction l as [|x l IH]; [reflexivity|]. cbn. unfold total_len in IH. rewrite H, IH. unfold zlen. rewrite app_length. lia.
Qed.
Lemma concat_split {A B} (f : A -> list B) b y a : List.concat (map f (b ++ y :: a)) = List.concat (map f b) ++ f y ++ List.concat (map f a).
Proof. now rewrite map_app, concat_app. Qed.

Lemma whole_spec a0 rest whole : axis_concat env (a0 :: rest) = Some whole ->
  Forall (fun b => prefix (axis_class a0) (axis_class b) = true /\ may_follow a0 b) rest -> Forall tight_axis (a0 :: rest) ->
  (forall before seg after, a0 :: rest = before ++ seg :: after -> segment whole (total_len before) seg) /\
  axis_len whole = total_len (a0 :: rest) /\ axis_class whole = axis_class a0 /\
  (forall c, (unrelated c a0 <-> unrelated c whole) /\ (unrelated a0 c <-> unrelated whole c)) /\
  elements whole = List.concat (map elements (a0 :: rest)).
Proof.
  intros E Hf Ht.
  assert (Forall (fun b => prefix (axis_class a0) (axis_class b) = true /\ may_follow a0 b) (a0 :: rest)) as Hall
    by (constructor; [split; [apply prefix_refl|apply may_follow_refl]|exact Hf]).
  assert (Forall (may_follow a0) (a0 :: rest)) as Hmf by (eapply Forall_impl; [|exact Hall]; intros b H; apply H).
  assert (common_class (map axis_class (a0 :: rest)) = Some (axis_class a0)) as Hcc.
  { cbn [map]. apply common_class_first. change (axis_class a0 :: map axis_class rest) with (map axis_class (a0 :: rest)). rewrite Forall_map. eapply Forall_impl; [|exact Hall]. intros b H; apply H. }
  destruct rest as [|a1 rest].
  { cbn in E. injection E as <-. split; [|split; [cbn; lia|split; [reflexivity|split; [intros c; split; reflexivity|cbn; now rewrite app_nil_r]]]].
    intros before seg after Es. destruct before as [|b before]; [|destruct before; discriminate]. injection Es as <- <-. cbn [total_len map fold_right].
    pose proof (axis_len_nonneg a0). split; [lia|]. split; [lia|]. unfold interval. cbn [fold_right]. rewrite Z.add_0_l.
    destruct a0 as [c|n|t]; cbn [axis_len].
    - split; [apply comparable_refl|]. split; [apply may_follow_refl|]. now rewrite pick_arange.
    - split; [apply may_follow_refl|]. now rewrite pick_arange.
    - split; [apply may_follow_refl|]. now rewrite pick_arange. }
  unfold axis_concat in E. rewrite Hcc in E. cbn [bind] in E. remember (a0 :: a1 :: rest) as segs eqn:Hsegs.
  destruct a0 as [c0|n0|t0].
  - destruct (coords_of c0 segs Hmf) as (cs & Ec & Es). rewrite Ec in E. cbn [bind] in E.
    assert (exists cs', cs = c0 :: cs') as (cs' & Ecs) by (rewrite Hsegs in Es; destruct cs as [|c cs']; [discriminate|]; injection Es as E1 E2; subst c; eauto).
    assert (find (fun c => class_eqb (c_class c) (axis_class (Coord c0))) cs = Some c0) as Ef by (rewrite Ecs; cbn; now rewrite class_eqb_refl).
    rewrite Ef in E. cbn [bind] in E. injection E as <-. cbn [axis_len c_vals axis_class c_class].
    split; [|split; [|split; [reflexivity|]]].
    + intros before seg after Eb. rewrite Es in Eb. destruct (map_app_split _ _ _ _ _ Eb) as (b & y & a & Ey & -> & -> & ->).
      assert (Hmy : may_follow (Coord c0) (Coord y) /\ prefix (c_class c0) (c_class y) = true).
      { rewrite Forall_forall in Hall. destruct (Hall (Coord y)) as [H1 H2]; [rewrite Es, Ey; apply in_map, in_or_app; right; now left|]. split; assumption. }
      rewrite (total_concat Coord c_vals) by reflexivity. unfold segment. cbn [axis_len c_vals c_class].
      rewrite Ey, concat_split. pose proof (zlen_nonneg (List.concat (map c_vals b))). pose proof (zlen_nonneg (c_vals y)). pose proof (zlen_nonneg (List.concat (map c_vals a))).
      split; [lia|]. split; [unfold zlen in *; rewrite !app_length; lia|]. split; [unfold comparable; rewrite (proj2 Hmy); apply orb_true_r|].
      split; [exact (proj1 Hmy)|]. symmetry. apply pick_between.
    + rewrite Es. now rewrite (total_concat Coord c_vals).
    + split; [intros c; destruct c as [c|c|c]; cbn [unrelated c_kind c_class c_name axis_class]; split; reflexivity|]. cbn [elements c_vals]. rewrite Es, concat_map, !map_map. reflexivity.
  - destruct (noncoords_of n0 segs Hmf) as (cs & Ec & Es). rewrite Ec in E. cbn [bind] in E.
    assert (Forall (fun n => n_class n0 = n_class n /\ n_keys n0 = n_keys n /\ Forall (fun r => length r = length (n_keys n)) (n_rows n)) cs) as Hcs.
    { rewrite Es in Hmf, Ht. clear -Hmf Ht. induction cs as [|n cs IH]; [constructor|]. inversion Hmf as [|? ? H1 H3]; inversion Ht as [|? ? H2 H4]; subst. cbn in H1, H2. destruct H1, H2 as [(_ & _ & G) _]. constructor; auto. }
    assert (Forall (fun n => map (pick_keys (n_keys n) (n_keys n0)) (n_rows n) = n_rows n) cs) as Hrows.
    { eapply Forall_impl; [|exact Hcs]. intros n (_ & -> & H). induction H as [|r rows Hr _ IH]; [reflexivity|]. cbn. rewrite IH, pick_keys_self by exact Hr. reflexivity. }
    assert (filter (fun k => forallb (fun n => existsb (Z.eqb k) (n_keys n)) cs) (n_keys n0) = n_keys n0) as Efil.
    { assert (forall ks, (forall k, In k ks -> In k (n_keys n0)) -> filter (fun k => forallb (fun n => existsb (Z.eqb k) (n_keys n)) cs) ks = ks) as K; [|apply K; auto].
      induction ks as [|k ks IH]; intros Hk; [reflexivity|]. cbn [filter].
      assert (forallb (fun n => existsb (Z.eqb k) (n_keys n)) cs = true) as ->.
      { apply forallb_forall. intros n Hn. rewrite Forall_forall in Hcs. destruct (Hcs n Hn) as (_ & <- & _). apply existsb_exists. exists k. split; [apply Hk; now left|apply Z.eqb_refl]. }
      f_equal. apply IH. intros k' H'. apply Hk. now right. }
    rewrite Efil in E. assert (flat_map (fun n => map (pick_keys (n_keys n) (n_keys n0)) (n_rows n)) cs = List.concat (map n_rows cs)) as Efl.
    { clear -Hrows. induction Hrows as [|n cs H _ IH]; [reflexivity|]. cbn. now rewrite H, IH. }
    destruct (n_keys n0) as [|k0 kk] eqn:Ek; [discriminate|]. rewrite <- Ek in *. rewrite Efl in E. injection E as <-. cbn [axis_len n_rows axis_class n_class].
    split; [|split; [|split; [reflexivity|]]].
    + intros before seg after Eb. rewrite Es in Eb. destruct (map_app_split _ _ _ _ _ Eb) as (b & y & a & Ey & -> & -> & ->).
      assert (Hmy : may_follow (NonCoord n0) (NonCoord y)).
      { rewrite Forall_forall in Hmf. apply Hmf. rewrite Es, Ey; apply in_map, in_or_app; right; now left. }
      rewrite (total_concat NonCoord n_rows) by reflexivity. unfold segment. cbn [axis_len n_rows].
      rewrite Ey, concat_split. pose proof (zlen_nonneg (List.concat (map n_rows b))). pose proof (zlen_nonneg (n_rows y)). pose proof (zlen_nonneg (List.concat (map n_rows a))).
      split; [lia|]. split; [unfold zlen in *; rewrite !app_length; lia|]. split; [|symmetry; apply pick_between].
      exact Hmy.
    + rewrite Es. now rewrite (total_concat NonCoord n_rows).
    + split; [intros c; destruct c as [c|c|c]; cbn [unrelated n_class axis_class]; split; reflexivity|]. cbn [elements n_rows]. rewrite Es, concat_map, !map_map. reflexivity.
  - destruct (times_of t0 segs Hmf) as (cs & Ec & Es). rewrite Ec in E. cbn [bind] in E.
    assert (forall l, Forall (may_follow (Time t0)) (map Time l) -> fold_left mask_and (map t_mask l) (t_mask t0) = t_mask t0) as Hm.
    { induction l as [|t l IH]; intros H; [reflexivity|]. inversion H as [|? ? H1 H2]; subst. cbn in H1. destruct H1 as [_ H1]. cbn [map fold_left]. rewrite <- H1.
      assert (mask_and (t_mask t0) (t_mask t0) = t_mask t0) as -> by (unfold mask_and; rewrite !andb_diag; destruct (t_mask t0); reflexivity). now apply IH. }
    rewrite Hm in E by (rewrite <- Es; exact Hmf). destruct (mask_eqb (t_mask t0) _); [discriminate|].
    destruct (if forallb _ cs then _ else _) as [start|]; [|discriminate]. cbn [bind] in E. destruct (sequence _) as [vals|]; [|discriminate]. cbn [bind] in E. injection E as <-.
    cbn [axis_len t_dates axis_class t_class]. split; [|split; [|split; [reflexivity|]]].
    + intros before seg after Eb. rewrite Es in Eb. destruct (map_app_split _ _ _ _ _ Eb) as (b & y & a & Ey & -> & -> & ->).
      assert (Hmy : may_follow (Time t0) (Time y)).
      { rewrite Forall_forall in Hmf. apply Hmf. rewrite Es, Ey; apply in_map, in_or_app; right; now left. }
      rewrite (total_concat Time t_dates) by reflexivity. unfold segment. cbn [axis_len t_dates].
      rewrite Ey, concat_split. pose proof (zlen_nonneg (List.concat (map t_dates b))). pose proof (zlen_nonneg (t_dates y)). pose proof (zlen_nonneg (List.concat (map t_dates a))).
      split; [lia|]. split; [unfold zlen in *; rewrite !app_length; lia|]. split; [exact Hmy|symmetry; apply pick_between].
    + rewrite Es. now rewrite (total_concat Time t_dates).
    + split; [intros c; destruct c as [c|c|c]; cbn [unrelated t_class t_mask axis_class]; split; reflexivity|]. cbn [elements t_dates]. rewrite Es, concat_map, !map_map. reflexivity.
Qed.
End Env.
