(** Records of real dates: sorting an axis by its values sorts its records. *)
From Coq Require Import ZArith List Bool Lia ZifyBool Permutation QArith_base.
From Verif Require Import Loop CalModel CalSpec CalProofs CalPyProofs
  TimeSearchModel TimeSearchSpec TimeSearchProofs TimeMapProofs.
Import ListNotations.
Open Scope Z_scope.

Definition fields (d : date) : list Z := [year d; month d; day d; hour d; minute d; second d].

Lemma earlier_lex a b : lex_lt (fields a) (fields b) -> earlier a b.
Proof.
  unfold fields, earlier. intros H.
  repeat (match goal with H : lex_lt _ _ |- _ => inversion H; clear H; subst end; try lia; try tauto).
Qed.

Fixpoint sel (k : list bool) (l : list Z) : list Z :=
  match k, l with
  | b :: k, x :: l => if b then x :: sel k l else sel k l
  | _, _ => []
  end.
Fixpoint fill (k : list bool) (dv l : list Z) : list Z :=
  match k, dv, l with
  | b :: k, v :: dv, x :: l => (if b then x else v) :: fill k dv l
  | _, _, _ => []
  end.

Lemma sel_fill k dv l l' : length l = length k -> length l' = length k -> length dv = length k ->
  lex_lt (sel k l) (sel k l') -> lex_lt (fill k dv l) (fill k dv l').
Proof.
  revert dv l l'; induction k as [|b k IH]; intros [|v dv] [|x l] [|x' l']; cbn; intros H1 H2 H3 H; try discriminate;
    try (now inversion H).
  injection H1 as H1. injection H2 as H2. injection H3 as H3. destruct b.
  - inversion H; subst.
    + apply ll_here; [assumption|]. clear -H1 H2 H3. revert dv l l' H1 H2 H3.
      induction k as [|b k IH]; intros [|v dv] [|x l] [|x' l']; cbn; intros H1 H2 H3; try discriminate; auto.
    + apply ll_next. auto.
  - apply ll_next. auto.
Qed.

Definition bits (k : mask) : list bool := [my k; mm k; md k; mh k; mmi k; ms k].

Lemma project_sel k d : project k d = sel (bits k) (fields d).
Proof. destruct k as [[] [] [] [] [] []]; reflexivity. Qed.

Lemma mask_fill k d : fields (get_dates (mask_date k d)) = fill (bits k) [0; 1; 1; 0; 0; 0] (fields d).
Proof. destruct k as [[] [] [] [] [] []]; reflexivity. Qed.

Lemma project_earlier k a b : lex_lt (project k a) (project k b) ->
  earlier (get_dates (mask_date k a)) (get_dates (mask_date k b)).
Proof.
  intros H. apply earlier_lex. rewrite !mask_fill. apply sel_fill; try reflexivity. now rewrite <- !project_sel.
Qed.


Definition nf (k : mask) : nat := length (filter (fun b => b) (bits k)).
Lemma project_len k d : length (project k d) = nf k.
Proof. destruct k as [[] [] [] [] [] []]; reflexivity. Qed.
Lemma nf_pos k : some_field k -> (0 < nf k)%nat.
Proof. unfold some_field. destruct k as [[] [] [] [] [] []]; cbn; intros; try lia. congruence. Qed.

Lemma month_length_range c y m n : month_length c y m n -> 1 <= m <= 12 /\ 1 <= n <= 31.
Proof. inversion 1; subst; lia. Qed.

Lemma month_length_year0 c y m n : month_length c y m n -> exists n', month_length c 0 m n' /\ n <= n'.
Proof.
  assert (L0 : leap_year 0) by (split; [exists 0; reflexivity|right; exists 0; reflexivity]).
  inversion 1; subst.
  - eexists; split; [apply ml_360; assumption|lia].
  - eexists; split; [apply ml_feb_leap; assumption|lia].
  - eexists; split; [apply ml_feb_leap; assumption|lia].
  - eexists; split; [apply ml_feb_365|lia].
  - eexists; split; [apply ml_30; assumption|lia].
  - eexists; split; [apply ml_31; assumption|lia].
Qed.

Lemma jan_length c y : c <> Yearless -> exists n, month_length c y 1 n /\ 30 <= n /\ (c <> C360 -> n = 31).
Proof.
  intros H. destruct c; try congruence.
  - exists 31. split; [apply ml_31; auto|lia].
  - exists 31. split; [apply ml_31; auto|lia].
  - exists 30. split; [apply ml_360; lia|]. split; [lia|congruence].
Qed.

Lemma day_bound c y m n : month_length c y m n -> n <= 31 /\ (c = C360 -> n = 30).
Proof. inversion 1; subst; split; try lia; intros; try congruence; destruct H0; congruence. Qed.

Lemma masked_valid c k d : valid_date c d -> valid_date c (get_dates (mask_date k d)).
Proof.
  intros [(Hh & Hm & Hs) Hd]. split.
  - unfold valid_time. destruct k as [b1 b2 b3 b4 b5 b6]; cbn. destruct b4, b5, b6; cbn; lia.
  - assert (K : c = Yearless \/ c <> Yearless) by (destruct c; auto; right; congruence).
    destruct K as [->|K].
    + cbn in *. destruct k as [b1 b2 b3 b4 b5 b6]; cbn. destruct Hd as [-> ->]. destruct b1, b2; cbn; lia.
    + assert (E : exists n, month_length c (year (get_dates (mask_date k d))) (month (get_dates (mask_date k d))) n /\
                 1 <= day (get_dates (mask_date k d)) <= n); [|destruct c; auto; congruence].
      assert (Hd' : exists n, month_length c (year d) (month d) n /\ 1 <= day d <= n) by (destruct c; auto; congruence).
      destruct Hd' as (n & Hn & Hr). pose proof (month_length_range _ _ _ _ Hn) as Rn.
      destruct (day_bound _ _ _ _ Hn) as [B1 B2].
      destruct k as [b1 b2 b3 b4 b5 b6]. cbn [mask_date get_dates year month day pyear pmonth pday my mm md dflt].
      assert (F : exists n', month_length c (if b1 then year d else 0) (if b2 then month d else 1) n' /\ n <= n').
      { destruct b2.
        - destruct b1; [exists n; split; [assumption|lia]|]. exact (month_length_year0 _ _ _ _ Hn).
        - destruct (jan_length c (if b1 then year d else 0) K) as (n' & Hn' & B3 & B4). exists n'. split; [exact Hn'|].
          destruct c; try congruence; [rewrite B4 by congruence; lia|rewrite B4 by congruence; lia|].
          rewrite (B2 eq_refl). lia. }
      destruct F as (n' & Hn' & L). exists n'. split.
      * destruct b1, b2; exact Hn'.
      * destruct b3; cbn; lia.
Qed.

Lemma axis_value_lt c s u k a b x y : good_start c (get_dates s) -> valid_date c a -> valid_date c b ->
  axis_value c s u k a = Some x -> axis_value c s u k b = Some y ->
  lex_lt (project k a) (project k b) -> (x < y)%Q.
Proof.
  intros Hs Ha Hb Ex Ey Hl. apply project_earlier in Hl.
  destruct (order_vals c (get_dates s) _ _ Hs (masked_valid c k a Ha) (masked_valid c k b Hb)) as (va & vb & Ea & Eb & Ho).
  apply Ho in Hl. unfold axis_value, date_as_val in Ex, Ey.
  rewrite Ea in Ex. rewrite Eb in Ey. injection Ex as <-. injection Ey as <-.
  unfold Qlt; cbn. nia.
Qed.

Lemma at_map {A B} (f : A -> B) l i y : at_ (map f l) i y -> exists x, at_ l i x /\ y = f x.
Proof.
  intros [H1 H2]. rewrite nth_error_map in H2. destruct (nth_error l (Z.to_nat i)) as [x|] eqn:E; [|discriminate].
  injection H2 as <-. exists x. split; [split; auto|reflexivity].
Qed.

Lemma map_opt_at {A B} (f : A -> option B) l vals i d v :
  map f l = map Some vals -> at_ l i d -> at_ vals i v -> f d = Some v.
Proof.
  intros H [H1 H2] [_ H3].
  assert (E : nth_error (map f l) (Z.to_nat i) = nth_error (map Some vals) (Z.to_nat i)) by now rewrite H.
  rewrite !nth_error_map, H2, H3 in E. cbn in E. congruence.
Qed.

Lemma records_sorted c s u k dates vals isrt sv rs : good_start c (get_dates s) -> Forall (valid_date c) dates ->
  map (axis_value c s u k) dates = map Some vals ->
  index_permutation (length dates) isrt -> take vals isrt = Some sv ->
  (forall i j x y, at_ sv i x -> at_ sv j y -> i < j -> (x <= y)%Q) ->
  take (map (project k) dates) isrt = Some rs -> sorted rs.
Proof.
  intros Hs Hv Hvals Hp Esv Hmono Ers.
  assert (Hlen : length vals = length dates).
  { apply (f_equal (@length _)) in Hvals. rewrite !map_length in Hvals. congruence. }
  eapply (take_sorted_by_value Qlt vals isrt (map (project k) dates) sv rs).
  - now rewrite map_length.
  - now rewrite map_length.
  - exact Esv.
  - exact Ers.
  - intros i j x y Hi Hj Hl K. specialize (Hmono i j x y Hi Hj Hl). apply (Qlt_not_le _ _ K). exact Hmono.
  - intros i j x y ri rj Hi Hj Hri Hrj K.
    apply at_map in Hri as (a & Ha & ->). apply at_map in Hrj as (b & Hb & ->).
    rewrite Forall_forall in Hv.
    eapply (axis_value_lt c s u k a b); [exact Hs|apply Hv, at_in; eauto|apply Hv, at_in; eauto| | |exact K].
    + eapply map_opt_at; eassumption.
    + eapply map_opt_at; eassumption.
Qed.

Lemma project_table k dates : table (nf k) (map (project k) dates).
Proof. apply Forall_forall. intros r Hr. apply in_map_iff in Hr as (d & <- & _). apply project_len. Qed.

Lemma dates_map_to c s u k mine theirs vals isrt sv :
  good_start c (get_dates s) -> Forall (valid_date c) mine -> some_field k ->
  map (axis_value c s u k) mine = map Some vals ->
  index_permutation (length mine) isrt -> take vals isrt = Some sv ->
  (forall i j x y, at_ sv i x -> at_ sv j y -> i < j -> (x <= y)%Q) ->
  exists ind, time_map_to isrt (map (project k) mine) (map (project k) theirs) = Some ind /\
    mapped (map (project k) mine) (map (project k) theirs) ind.
Proof.
  intros Hs Hv Hk Hvals Hp Esv Hmono.
  destruct (take_spec (map (project k) mine) isrt) as (rs & Ers & _).
  { unfold zlen. rewrite map_length. apply perm_range. exact Hp. }
  eapply time_map_to_spec.
  - apply nf_pos. exact Hk.
  - apply project_table.
  - apply project_table.
  - now rewrite map_length.
  - exact Ers.
  - eapply records_sorted; eassumption.
Qed.

(** every accepted axis has a value for every time *)
Lemma axis_values_exist c s u k dates : good_start c (get_dates s) -> Forall (valid_date c) dates ->
  exists vals, map (axis_value c s u k) dates = map Some vals.
Proof.
  intros Hs. induction 1 as [|d dates Hd _ [vals IH]]; [exists []; reflexivity|].
  destruct (date_val_date c (get_dates s) (get_dates (mask_date k d)) Hs (masked_valid c k d Hd)) as (v & Ev & _).
  unfold axis_value at 1. cbn [map]. unfold date_as_val. rewrite Ev.
  exists ((v # unitfactor u) :: vals). cbn [map]. now rewrite <- IH.
Qed.
