(** Lemmas for the climatologies: the time axes. *)
From Coq Require Import ZArith List Bool Lia ZifyBool Permutation QArith_base.
From Verif Require Import Loop CalModel CalSpec TimeSearchModel TimeSearchSpec TimeSearchProofs TimeMapProofs TimeDateProofs IndexModel IndexSpec IndexProofs ArrModel ArrProofs
  ViewModel AxisModel AxisSpec AxisProofs VarOpsModel NumModel StencilModel IntgrProofs LoopProofs ClimModel ClimSpec.
Import ListNotations.
Open Scope Z_scope.

Notation zlen := IndexSpec.zlen.

(** *** every pair is produced once *)
Definition behind (st : Z * Z * list (Z * Z)) : Prop := let '(ai, bi, m) := st in NoDup m /\ forall p, In p m -> fst p + snd p < ai + bi.
Lemma step_behind a b st : behind st -> match cm_step a b st with inl st' => behind st' | inr (Some m) => NoDup m | inr None => True end.
Proof.
  destruct st as [[ai bi] m]. intros [Hn Hb]. unfold cm_step.
  destruct ((ai <? TimeSearchModel.zlen a) && (bi <? TimeSearchModel.zlen b)); [|exact Hn].
  destruct (TimeSearchModel.znth a ai) as [ra|]; [|exact I]. destruct (TimeSearchModel.znth b bi) as [rb|]; [|exact I]. cbv zeta.
  assert (NoDup ((ai, bi) :: m)) as Hn'.
  { constructor; [|exact Hn]. intros H. apply Hb in H. cbn [fst snd] in H. lia. }
  assert (forall p, In p ((ai, bi) :: m) -> fst p + snd p < ai + bi + 1) as Hb'.
  { intros p [<-|H]; [cbn; lia|]. apply Hb in H. lia. }
  assert (forall p, In p ((ai, bi) :: m) -> fst p + snd p < ai + 1 + bi) as A1 by (intros p H; apply Hb' in H; lia).
  assert (forall p, In p ((ai, bi) :: m) -> fst p + snd p < ai + (bi + 1)) as A2 by (intros p H; apply Hb' in H; lia).
  assert (forall p, In p ((ai, bi) :: m) -> fst p + snd p < ai + 1 + (bi + 1)) as A3 by (intros p H; apply Hb' in H; lia).
  assert (forall p, In p m -> fst p + snd p < ai + 1 + bi) as B1 by (intros p H; apply Hb in H; lia).
  assert (forall p, In p m -> fst p + snd p < ai + (bi + 1)) as B2 by (intros p H; apply Hb in H; lia).
  destruct (cmpval ra rb =? 0).
  - destruct (if ai <? TimeSearchModel.zlen a - 1 then _ else _) as [[]|]; [now split| |exact I].
    destruct (if bi <? TimeSearchModel.zlen b - 1 then _ else _) as [[]|]; [now split| now split|exact I].
  - destruct (cmpval ra rb <? 0); now split.
Qed.
Lemma loop_behind a b n st : behind st -> match loop n (cm_step a b) st with inl st' => behind st' | inr (Some m) => NoDup m | inr None => True end.
Proof.
  revert st. induction n as [|n IH]; intros st H; [apply step_behind, H|]. cbn [loop]. specialize (IH st H) as K.
  destruct (loop n (cm_step a b) st) as [st'|[m|]]; [apply IH, K|exact K|exact I].
Qed.
Lemma common_map_NoDup a b m : TimeSearchModel.common_map a b = Some m -> NoDup m.
Proof.
  unfold TimeSearchModel.common_map. pose proof (loop_behind a b (fuel_for (TimeSearchModel.zlen a + TimeSearchModel.zlen b)) (0, 0, [])) as H.
  destruct (loop _ _ _) as [st'|[m'|]]; try discriminate. intros E. injection E as <-. apply NoDup_rev, H. split; [constructor|intros p []].
Qed.
Lemma take_map {A} (l : list A) ind r (d : A) : TimeSearchModel.take l ind = Some r -> r = map (fun i => nth (Z.to_nat i) l d) ind /\ Forall (fun i => 0 <= i < TimeSearchModel.zlen l) ind.
Proof.
  revert r. induction ind as [|i ind IH]; intros r H; cbn in H; [injection H as <-; split; [reflexivity|constructor]|].
  destruct (TimeSearchModel.znth l i) as [x|] eqn:Ex; [|discriminate]. destruct (fold_right _ _ ind) as [r'|] eqn:Er; [|discriminate]. injection H as <-.
  destruct (IH r' Er) as [-> Hf]. apply znth_at in Ex. pose proof (at_lt _ _ _ Ex). destruct Ex as [_ Ex]. split; [|now constructor].
  cbn [map]. f_equal. symmetry. apply nth_error_nth, Ex.
Qed.
Lemma combine_map {A B C} (f : A -> B) (g : A -> C) l : combine (map f l) (map g l) = map (fun x => (f x, g x)) l.
Proof. induction l as [|x l IH]; [reflexivity|]. cbn. now rewrite IH. Qed.
Lemma NoDup_nth_Z (l : list Z) i j : NoDup l -> 0 <= i < TimeSearchModel.zlen l -> 0 <= j < TimeSearchModel.zlen l -> nth (Z.to_nat i) l 0 = nth (Z.to_nat j) l 0 -> i = j.
Proof. intros H Hi Hj E. unfold TimeSearchModel.zlen in *. apply (proj1 (NoDup_nth l 0) H) in E; lia. Qed.
Lemma NoDup_map_in {A B} (f : A -> B) l : (forall x y, In x l -> In y l -> f x = f y -> x = y) -> NoDup l -> NoDup (map f l).
Proof.
  intros Hf H. induction H as [|x l Hx Hl IH]; [constructor|]. cbn [map]. constructor.
  - intros K. apply in_map_iff in K as (y & E & Hy). apply Hf in E; [subst; contradiction|now right|now left].
  - apply IH. intros y z Hy Hz. apply Hf; now right.
Qed.
Lemma time_common_map_NoDup a_ind b_ind a b m : NoDup a_ind -> NoDup b_ind -> time_common_map a_ind b_ind a b = Some m -> NoDup m.
Proof.
  intros Ha Hb. unfold time_common_map. destruct (TimeSearchModel.take a a_ind) as [sa|]; [|discriminate]. destruct (TimeSearchModel.take b b_ind) as [sb|]; [|discriminate].
  destruct (TimeSearchModel.common_map sa sb) as [m0|] eqn:Em; [|discriminate]. apply common_map_NoDup in Em.
  destruct (_ <=? _); [|discriminate].
  destruct (TimeSearchModel.take a_ind (map fst m0)) as [x|] eqn:Ex; [|discriminate]. destruct (TimeSearchModel.take b_ind (map snd m0)) as [y|] eqn:Ey; [|discriminate].
  intros E. injection E as <-. apply (take_map _ _ _ 0) in Ex as [-> Fx]. apply (take_map _ _ _ 0) in Ey as [-> Fy].
  rewrite !map_map, combine_map. apply NoDup_map_in; [|exact Em]. intros [p q] [p' q'] Hp Hq E. injection E as E1 E2.
  rewrite Forall_map in Fx, Fy. pose proof (proj1 (Forall_forall _ _) Fx _ Hp) as K1. pose proof (proj1 (Forall_forall _ _) Fx _ Hq) as K2.
  pose proof (proj1 (Forall_forall _ _) Fy _ Hp) as K3. pose proof (proj1 (Forall_forall _ _) Fy _ Hq) as K4. cbn [fst snd] in *.
  f_equal; [apply (NoDup_nth_Z a_ind)|apply (NoDup_nth_Z b_ind)]; assumption.
Qed.

(** *** axes with fewer fields *)


Lemma date_of_project k d : date_of k (project k d) = get_dates (mask_date k d).
Proof. destruct k as [[] [] [] [] [] []]; reflexivity. Qed.
Lemma project_masked k d : project k (get_dates (mask_date k d)) = project k d.
Proof. destruct k as [[] [] [] [] [] []]; reflexivity. Qed.
Lemma start_good c k p : good_start c (get_dates p) -> good_start c (get_dates (start_of c k p)).
Proof.
  destruct c; unfold good_start, start_of, get_dates; cbn [month year pmonth pyear]; try (destruct (mm k); cbn [dflt]; intros; [assumption|lia]).
  intros [A B]. split; [reflexivity|]. destruct (mm k); [exact B|reflexivity].
Qed.
Lemma some_no_field k : no_field k = false <-> some_field k.
Proof.
  unfold some_field, no_field. destruct k as [[] [] [] [] [] []]; cbn; split; intros H; try reflexivity; try discriminate; try (intros K; discriminate).
  exfalso; apply H; reflexivity.
Qed.
Lemma sequence_Some {A} (l : list A) : sequence (map Some l) = Some l.
Proof. induction l as [|x l IH]; [reflexivity|]. cbn [map sequence bind]. now rewrite IH. Qed.
Lemma project_incl j k d : mask_sub j k = true -> forall x, In x (project j d) -> In x (project k d).
Proof.
  intros H. apply mask_sub_fields in H as (A & B & C & D & E & F). intros x. unfold project. rewrite !in_app_iff.
  intros K. repeat match goal with
  | K : _ \/ _ |- _ => destruct K as [K|K]
  end.
  1: left; destruct (my j); [rewrite A by reflexivity; exact K|destruct K].
  1: right; left; destruct (mm j); [rewrite B by reflexivity; exact K|destruct K].
  1: right; right; left; destruct (md j); [rewrite C by reflexivity; exact K|destruct K].
  1: right; right; right; left; destruct (mh j); [rewrite D by reflexivity; exact K|destruct K].
  1: right; right; right; right; left; destruct (mmi j); [rewrite E by reflexivity; exact K|destruct K].
  right; right; right; right; right; destruct (ms j); [rewrite F by reflexivity; exact K|destruct K].
Qed.
Lemma increasing_records_NoDup l : TimeSearchSpec.increasing l -> NoDup l.
Proof.
  intros H. apply NoDup_nth_error. intros i j Hi E. destruct (nth_error l i) as [x|] eqn:Ei; [|apply nth_error_None in Ei; lia].
  assert (Z.of_nat i = Z.of_nat j); [|lia]. apply (increasing_distinct l _ _ x H); split; try lia; rewrite Nat2Z.id; congruence.
Qed.

Section Modify.
Context (lexsort : list (list Z) -> list Z) (Hlex : lexsort_ok lexsort).

Lemma sorted_rows n rows : table n rows -> exists s, TimeSearchModel.take rows (lexsort rows) = Some s /\ TimeSearchSpec.sorted s /\ index_permutation (length rows) (lexsort rows).
Proof.
  intros H. destruct (Hlex n rows H) as [Hp Hs].
  destruct (take_spec rows (lexsort rows)) as (s & E & _); [exact (perm_range _ _ Hp)|]. exists s. auto.
Qed.

Theorem modify_spec t k : good_axis (Time t) -> some_field k -> mask_sub k (t_mask t) = true ->
  exists u, modify lexsort t k = Some u /\ good_axis (Time u) /\ t_class u = t_class t /\ t_cal u = t_cal t /\ t_mask u = k /\
    TimeSearchSpec.increasing (records k u) /\ forall r, In r (records k u) <-> In r (records k t).
Proof.
  intros (Hst & Hv & Hf & Hax & Hnd & Hb) Hk Hsub. unfold modify. rewrite (proj2 (some_no_field k) Hk).
  destruct (sorted_rows (nf k) (records k t) (project_table _ _)) as (s & Es & Ss & Hp).
  destruct (py_uniquify_spec (nf k) (lexsort (records k t)) (records k t) s (nf_pos _ Hk) (project_table _ _) Hp Es Ss) as (rows & -> & Hinc & Hin).
  cbn [bind].
  assert (forall r, In r rows -> exists d, r = project k d /\ In d (t_dates t)) as Hrow.
  { intros r Hr. apply Hin in Hr. apply in_map_iff in Hr as (d & <- & Hd). eauto. }
  assert (Forall (valid_date (t_cal t)) (map (date_of k) rows)) as Hv'.
  { apply Forall_map, Forall_forall. intros r Hr. apply Hrow in Hr as (d & -> & Hd). rewrite date_of_project. apply masked_valid.
    exact (proj1 (Forall_forall _ _) Hv d Hd). }
  destruct (axis_values_exist (t_cal t) (start_of (t_cal t) k (t_start t)) (t_units t) k _ (start_good _ k _ Hst) Hv') as (vals & Hvals).
  rewrite Hvals, sequence_Some. cbn [bind]. eexists. split; [reflexivity|].
  assert (map (project k) (map (date_of k) rows) = rows) as Er.
  { rewrite map_map. rewrite <- (map_id rows) at 2. apply map_ext_in. intros r Hr. apply Hrow in Hr as (d & -> & _). now rewrite date_of_project, project_masked. }
  unfold records at 1 2 3. cbn [t_dates t_mask t_class t_cal]. rewrite Er.
  split; [|repeat (split; [reflexivity|]); split; [exact Hinc|exact Hin]].
  unfold good_axis. cbn [t_cal t_start t_dates t_mask t_units t_vals]. split; [now apply start_good|]. split; [exact Hv'|]. split; [exact Hk|]. split; [exact Hvals|].
  unfold records. cbn [t_dates]. rewrite Er. split; [apply increasing_records_NoDup, Hinc|].
  apply Forall_forall. intros r Hr. apply Hrow in Hr as (d & -> & Hd). apply Forall_forall. intros x Hx.
  pose proof (proj1 (Forall_forall _ _) Hb (project (t_mask t) d) (in_map _ _ _ Hd)) as K. apply (project_incl _ _ _ Hsub) in Hx.
  exact (proj1 (Forall_forall _ _) K x Hx).
Qed.

Lemma mask_and_sub j k : mask_sub k j = true -> mask_and j k = k.
Proof. destruct j as [[] [] [] [] [] []], k as [[] [] [] [] [] []]; cbn; intros H; try discriminate; reflexivity. Qed.

Lemma record_at k t i r : at_ (records k t) i r <-> 0 <= i < zlen (t_dates t) /\ r = record_of k t i.
Proof.
  split.
  - intros H. pose proof (at_lt _ _ _ H) as Hr. destruct H as [_ H]. unfold records, TimeSearchModel.zlen, zlen in *. rewrite map_length in Hr. split; [exact Hr|].
    unfold record_of, records. symmetry. apply nth_error_nth. exact H.
  - intros [Hi ->]. split; [lia|]. unfold record_of. apply nth_error_nth'. unfold records, zlen in *. rewrite map_length. lia.
Qed.

Theorem common_map_axes t ct : t_class ct = t_class t -> some_field (t_mask ct) -> mask_sub (t_mask ct) (t_mask t) = true -> NoDup (records (t_mask ct) ct) ->
  exists m, common_map lexsort t ct = Some m /\ NoDup m /\
    forall i j, In (i, j) m <-> 0 <= i < zlen (t_dates t) /\ 0 <= j < zlen (t_dates ct) /\ record_of (t_mask ct) t i = record_of (t_mask ct) ct j.
Proof.
  intros Hc Hk Hsub Hnd. unfold common_map. rewrite (mask_and_sub _ _ Hsub), Hc, class_eqb_refl, (proj2 (some_no_field _) Hk). cbn [negb orb]. set (k := t_mask ct) in *.
  destruct (sorted_rows (nf k) (records k t) (project_table _ _)) as (sa & Ea & Sa & Pa). destruct (sorted_rows (nf k) (records k ct) (project_table _ _)) as (sb & Eb & Sb & Pb).
  destruct (time_common_map_spec (nf k) _ _ _ _ _ _ (project_table _ _) (project_table _ _) Pa Pb Ea Eb Sa Sb (or_intror Hnd)) as (m & Em & H1 & H2 & H3).
  exists m. split; [exact Em|]. split; [eapply time_common_map_NoDup; [exact (perm_NoDup _ _ Pa)|exact (perm_NoDup _ _ Pb)|exact Em]|].
  intros i j. split.
  - intros H. apply H1 in H as (r & A & B). apply record_at in A as [Hi ->]. apply record_at in B as [Hj E]. auto.
  - intros (Hi & Hj & E).
    assert (at_ (records k t) i (record_of k t i)) as A by (apply record_at; auto). assert (at_ (records k ct) j (record_of k t i)) as B by (apply record_at; auto).
    destruct (H2 i _ A) as (j' & Hj'); [apply at_in; eauto|]. destruct (H1 _ _ Hj') as (r & A' & B').
    rewrite (at_fun _ _ _ _ A' A) in B'. now rewrite (NoDup_at _ _ _ _ Hnd B B').
Qed.
End Modify.
