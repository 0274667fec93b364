(** Merging of attributes (C29) and progress bars (C42). *)
From Coq Require Import ZArith List Bool Lia QArith_base QArith Qminmax Lqa.
From Verif Require Import MetaModel.
Import ListNotations.
Open Scope Z_scope.

(** a dictionary has each key once *)
Definition well_formed {V} (d : list (Z * V)) : Prop := NoDup (map fst d).

Section Dict.
Context {V : Type} (ne : V -> V -> bool).
Notation dict := (list (Z * V)).
Implicit Types d : dict.

Lemma lookup_In k v d : well_formed d -> (lookup k d = Some v <-> In (k, v) d).
Proof.
  unfold well_formed. induction d as [|[k' v'] d IH]; intros H; cbn in *; [split; [discriminate|tauto]|].
  inversion H as [|? ? Hn Hd]; subst. destruct (Z.eqb_spec k k') as [->|Hne].
  - split; [intros [= ->]; now left|]. intros [[= ->]|Hi]; [reflexivity|]. exfalso. apply Hn, in_map_iff. exists (k', v). auto.
  - rewrite IH by exact Hd. split; [now right|]. intros [[= <- <-]|Hi]; [congruence|exact Hi].
Qed.
Lemma lookup_none k d : lookup k d = None <-> ~ In k (map fst d).
Proof.
  induction d as [|[k' v'] d IH]; cbn; [tauto|]. destruct (Z.eqb_spec k k') as [->|Hne].
  - split; [discriminate|]. intros H. exfalso. apply H. now left.
  - rewrite IH. intuition congruence.
Qed.
Lemma lookup_assign k k' v d : lookup k (assign k' v d) = if k =? k' then Some v else lookup k d.
Proof.
  induction d as [|[k1 v1] d IH]; cbn; [reflexivity|]. destruct (Z.eqb_spec k' k1) as [->|H1]; cbn.
  - now destruct (k =? k1).
  - destruct (Z.eqb_spec k k1) as [->|H2]; [|exact IH]. destruct (Z.eqb_spec k1 k'); [congruence|reflexivity].
Qed.
Lemma keys_assign k v d : In k (map fst d) -> map fst (assign k v d) = map fst d.
Proof. induction d as [|[k1 v1] d IH]; cbn; [tauto|]. intros H. destruct (Z.eqb_spec k k1) as [->|H1]; [reflexivity|]. cbn. f_equal. apply IH. destruct H; congruence. Qed.
Lemma assign_wf k v d : well_formed d -> well_formed (assign k v d).
Proof.
  unfold well_formed. intros H. destruct (in_dec Z.eq_dec k (map fst d)) as [Hi|Hn]; [now rewrite keys_assign|].
  assert (assign k v d = d ++ [(k, v)]) as ->.
  { clear H. induction d as [|[k1 v1] d IH]; [reflexivity|]. cbn in *. destruct (Z.eqb_spec k k1) as [->|]; [tauto|]. f_equal. tauto. }
  rewrite map_app. cbn. revert H Hn. generalize (map fst d). clear. induction l as [|a l IH]; intros H Hn; cbn; [constructor; [intros []|constructor]|].
  inversion H; subst. cbn in Hn. constructor; [|apply IH; tauto]. rewrite in_app_iff. cbn. intuition congruence.
Qed.
Lemma lookup_delete k k' d : well_formed d -> lookup k (delete k' d) = if k =? k' then None else lookup k d.
Proof.
  unfold well_formed. induction d as [|[k1 v1] d IH]; intros H; cbn; [now destruct (k =? k')|]. inversion H as [|? ? Hn Hd]; subst. destruct (Z.eqb_spec k' k1) as [->|H1]; cbn.
  - destruct (Z.eqb_spec k k1) as [->|]; [|reflexivity]. now apply lookup_none.
  - rewrite IH by exact Hd. destruct (Z.eqb_spec k k1) as [->|H2]; [|reflexivity]. destruct (Z.eqb_spec k1 k'); [congruence|reflexivity].
Qed.
Lemma delete_incl k d : incl (map fst (delete k d)) (map fst d).
Proof. induction d as [|[k1 v1] d IH]; cbn; [intros y []|]. destruct (k =? k1); [intros y Hy; now right|]. intros y [E|Hy]; [left; exact E|right; now apply IH]. Qed.
Lemma delete_wf k d : well_formed d -> well_formed (delete k d).
Proof.
  unfold well_formed. induction d as [|[k1 v1] d IH]; intros H; cbn; [constructor|]. inversion H as [|? ? Hn Hd]; subst. destruct (k =? k1); [exact Hd|].
  cbn. constructor; [|now apply IH]. intros Hi. apply Hn. now apply (delete_incl k).
Qed.
Lemma fold_assign_wf pairs : forall d, well_formed d -> well_formed (fold_left (fun d '(k, v) => assign k v d) pairs d).
Proof. induction pairs as [|[k v] t IH]; intros d H; [exact H|]. cbn. apply IH. now apply assign_wf. Qed.
Lemma lookup_fold_assign k pairs : forall d,
  match lookup k (fold_left (fun d '(k, v) => assign k v d) pairs d) with
  | Some v => In (k, v) pairs \/ lookup k d = Some v
  | None => ~ In k (map fst pairs) /\ lookup k d = None
  end.
Proof.
  induction pairs as [|[k1 v1] t IH]; intros d; cbn [fold_left].
  - destruct (lookup k d); [now right|]. split; [intros []|reflexivity].
  - specialize (IH (assign k1 v1 d)). destruct (lookup k (fold_left _ t _)) as [v|].
    + destruct IH as [IH|IH]; [left; now right|]. rewrite lookup_assign in IH. destruct (Z.eqb_spec k k1) as [->|]; [injection IH as ->; left; now left|now right].
    + destruct IH as [H1 H2]. rewrite lookup_assign in H2. destruct (Z.eqb_spec k k1) as [->|]; [discriminate|]. split; [cbn; intuition congruence|exact H2].
Qed.
Lemma lookup_cleanup k dicts : forall items d, well_formed d ->
  lookup k (fold_left (fun d '(k, v) => if removed ne k v dicts then delete k d else d) items d) =
  if existsb (fun '(k', v') => (k =? k') && removed ne k' v' dicts) items then None else lookup k d.
Proof.
  induction items as [|[k1 v1] t IH]; intros d H; [reflexivity|]. cbn [fold_left existsb]. rewrite IH.
  - destruct (removed ne k1 v1 dicts) eqn:E; [rewrite andb_true_r|now rewrite andb_false_r, orb_false_l]. rewrite lookup_delete by exact H.
    destruct (Z.eqb_spec k k1) as [->|]; cbn; [now destruct (existsb _ t)|reflexivity].
  - destruct (removed ne k1 v1 dicts); [now apply delete_wf|exact H].
Qed.
Lemma removed_false k v dicts : removed ne k v dicts = false <-> Forall (fun d => exists w, lookup k d = Some w /\ ne w v = false) dicts.
Proof.
  induction dicts as [|d dicts IH]; cbn; [split; [constructor|reflexivity]|]. destruct (lookup k d) as [w|] eqn:E.
  - destruct (ne w v) eqn:En.
    + split; [discriminate|]. inversion 1 as [|? ? (w' & Hw & Hn) _]; subst. congruence.
    + rewrite IH. split; [constructor; [exists w; auto|assumption]|now inversion 1].
  - split; [discriminate|]. inversion 1 as [|? ? (w' & Hw & Hn) _]; subst. congruence.
Qed.
Lemma cleanup_wf dicts : forall items d, well_formed d -> well_formed (fold_left (fun d '(k, v) => if removed ne k v dicts then delete k d else d) items d).
Proof. induction items as [|[k v] t IH]; intros d H; [exact H|]. cbn. apply IH. destruct (removed ne k v dicts); [now apply delete_wf|exact H]. Qed.
Lemma common_dict_spec (Heq : forall x y, ne x y = false <-> x = y) dicts k v : Forall well_formed dicts ->
  (lookup k (common_dict ne dicts) = Some v <-> dicts <> [] /\ Forall (fun d => lookup k d = Some v) dicts) /\ well_formed (common_dict ne dicts).
Proof.
  intros Hwf. unfold common_dict. set (d := dict_of (concat dicts)).
  assert (well_formed d) as Hd by (apply fold_assign_wf; constructor).
  split; [|now apply cleanup_wf]. rewrite lookup_cleanup by exact Hd.
  assert (forall w, lookup k d = Some w -> existsb (fun '(k', v') => (k =? k') && removed ne k' v' dicts) d = removed ne k w dicts) as He.
  { intros w Hw. apply lookup_In in Hw; [|exact Hd]. destruct (removed ne k w dicts) eqn:E.
    - apply existsb_exists. exists (k, w). split; [exact Hw|]. now rewrite Z.eqb_refl, E.
    - apply not_true_is_false. intros K. apply existsb_exists in K as ([k' v'] & Hi & K). apply andb_true_iff in K as [K1 K2]. apply Z.eqb_eq in K1 as <-.
      apply lookup_In in Hi; [|exact Hd]. apply lookup_In in Hw; [|exact Hd]. congruence. }
  assert (lookup k d = None -> existsb (fun '(k', v') => (k =? k') && removed ne k' v' dicts) d = false) as He0.
  { intros Hn. apply not_true_is_false. intros K. apply existsb_exists in K as ([k' v'] & Hi & K). apply andb_true_iff in K as [K1 _]. apply Z.eqb_eq in K1 as <-.
    apply lookup_In in Hi; [|exact Hd]. congruence. }
  pose proof (lookup_fold_assign k (concat dicts) []) as Hl. fold (dict_of (concat dicts)) in Hl. fold d in Hl.
  destruct (lookup k d) as [w|] eqn:Ew.
  - rewrite (He w eq_refl). destruct Hl as [Hl|Hl]; [|discriminate]. apply in_concat in Hl as (d0 & Hd0 & Hl).
    assert (dicts <> []) as Hne by (intros ->; destruct Hd0).
    split.
    + intros H. destruct (removed ne k w dicts) eqn:Er; [discriminate|]. injection H as <-. split; [exact Hne|]. apply removed_false in Er.
      eapply Forall_impl; [|exact Er]. intros x (u & Hu & En). apply Heq in En as ->. exact Hu.
    + intros [_ H]. assert (w = v) as ->.
      { rewrite Forall_forall in H, Hwf. specialize (H d0 Hd0). apply lookup_In in Hl; [|now apply Hwf]. congruence. }
      assert (removed ne k v dicts = false) as ->; [|reflexivity]. apply removed_false. eapply Forall_impl; [|exact H]. intros x Hx. exists v. split; [exact Hx|]. now apply Heq.
  - rewrite He0 by reflexivity. destruct Hl as [Hl _]. split; [discriminate|]. intros [Hne H]. exfalso. destruct dicts as [|d0 t]; [congruence|].
    inversion H as [|? ? H0 _]; subst. inversion Hwf; subst. apply lookup_In in H0; [|assumption]. apply Hl. apply in_map_iff. exists (k, v). split; [reflexivity|]. cbn. apply in_or_app. now left.
Qed.
End Dict.

Lemma nodup_single (l : list Z) s : nodup Z.eq_dec l = [s] <-> l <> [] /\ Forall (fun x => x = s) l.
Proof.
  split.
  - intros H. split; [intros ->; discriminate|]. apply Forall_forall. intros x Hx. apply (nodup_In Z.eq_dec) in Hx. rewrite H in Hx. destruct Hx as [<-|[]]; reflexivity.
  - intros [Hne H]. induction H as [|x l -> Hl IH]; [congruence|]. cbn. destruct l as [|y l]; [reflexivity|].
    inversion Hl as [|? ? E]; subst. destruct (in_dec Z.eq_dec s (s :: l)) as [_|Hn]; [apply IH; discriminate|exfalso; apply Hn; now left].
Qed.

(** C29: the attributes of a combined variable are those that all inputs have with one and the same value *)
Theorem C29_common_attributes : forall V (ne : V -> V -> bool), (forall x y, ne x y = false <-> x = y) ->
  forall dicts k v, Forall well_formed dicts ->
  (lookup k (common_dict ne dicts) = Some v <-> dicts <> [] /\ Forall (fun d => lookup k d = Some v) dicts) /\
  well_formed (common_dict ne dicts).
Proof. exact @common_dict_spec. Qed.
Print Assumptions C29_common_attributes.

(** the name (and the units) if all inputs agree on it *)
Theorem C29_common_name : forall names old s, combine_name names old = s <->
  (names <> [] /\ Forall (fun x => x = s) names) \/ (~ (exists t, names <> [] /\ Forall (fun x => x = t) names) /\ s = old).
Proof.
  intros names old s. unfold combine_name. destruct (nodup Z.eq_dec names) as [|t [|u l]] eqn:E.
  - split.
    + intros <-. right. split; [|reflexivity]. intros (t & H). apply nodup_single in H. congruence.
    + intros [H|[_ ->]]; [|reflexivity]. apply nodup_single in H. congruence.
  - pose proof (proj1 (nodup_single names t) E) as H. split.
    + intros <-. now left.
    + intros [H'|[H' _]]; [apply nodup_single in H'; congruence|]. exfalso. apply H'. now exists t.
  - split.
    + intros <-. right. split; [|reflexivity]. intros (t' & H). apply nodup_single in H. congruence.
    + intros [H|[_ ->]]; [|reflexivity]. apply nodup_single in H. congruence.
Qed.
Print Assumptions C29_common_name.

Example C29_example :
  Forall well_formed [[(1, 5); (2, 6); (3, 7)]; [(3, 7); (1, 5)]; [(1, 5); (2, 6); (3, 8)]] /\
  common_dict (fun x y => negb (x =? y)) [[(1, 5); (2, 6); (3, 7)]; [(3, 7); (1, 5)]; [(1, 5); (2, 6); (3, 8)]] = [(1, 5)] /\
  combine_name [4; 4] 0 = 4 /\ combine_name [4; 5] 0 = 0.
Proof. split; [repeat constructor; cbn; intuition lia|]. repeat split. Qed.

(** *** progress bars *)
Open Scope Q_scope.
(** a progress bar as pygeode hands it down: obtained from a new one by taking subsets *)
Inductive reachable : pbar -> Prop :=
| r_new : reachable new_pbar
| r_subset b L U : reachable b -> 0 <= L -> L <= U -> U <= 100 -> reachable (subset b L U)
| r_part b i n : reachable b -> (0 <= i < n)%Z -> reachable (part b i n).

Lemma scale_bounds l u x : l <= u -> 0 <= x -> x <= 100 -> l <= l + (u - l) * x / 100 /\ l + (u - l) * x / 100 <= u.
Proof.
  intros H Hx Hx'. setoid_replace (l + (u - l) * x / 100) with (l + (u - l) * (x / 100)) by field.
  assert (0 <= x / 100 /\ x / 100 <= 1) as [H1 H2].
  { split; [apply Qle_shift_div_l; lra|apply Qle_shift_div_r; lra]. }
  generalize dependent (x / 100). intros t H1 H2. split; nra.
Qed.
Lemma scale_mono l u x y : l <= u -> x <= y -> l + (u - l) * x / 100 <= l + (u - l) * y / 100.
Proof.
  intros H Hxy. setoid_replace (l + (u - l) * x / 100) with (l + (u - l) * x * (1 # 100)) by field.
  setoid_replace (l + (u - l) * y / 100) with (l + (u - l) * y * (1 # 100)) by field. nra.
Qed.
Definition inside (b : pbar) : Prop := 0 <= lower b /\ lower b <= upper b /\ upper b <= 100.
Lemma subset_inside b L U : inside b -> 0 <= L -> L <= U -> U <= 100 -> inside (subset b L U) /\ lower b <= lower (subset b L U) /\ upper (subset b L U) <= upper b.
Proof.
  intros (H1 & H2 & H3) HL HLU HU. unfold inside, subset. cbn.
  destruct (scale_bounds (lower b) (upper b) L H2 HL) as [K1 K2]; [lra|]. destruct (scale_bounds (lower b) (upper b) U H2) as [K3 K4]; [lra|exact HU|].
  pose proof (scale_mono (lower b) (upper b) L U H2 HLU). lra.
Qed.
Lemma part_range i n : (0 <= i < n)%Z -> 0 <= 100 / inject_Z n * inject_Z i /\ 100 / inject_Z n * inject_Z i <= 100 / inject_Z n * (inject_Z i + 1) /\ 100 / inject_Z n * (inject_Z i + 1) <= 100.
Proof.
  intros [Hi Hn]. assert (0 < inject_Z n) as Hn' by (change 0 with (inject_Z 0); rewrite <- Zlt_Qlt; lia).
  assert (inject_Z i + 1 <= inject_Z n) as Hin by (change 1 with (inject_Z 1); rewrite <- inject_Z_plus, <- Zle_Qle; lia).
  assert (0 <= inject_Z i) as Hi' by (change 0 with (inject_Z 0); rewrite <- Zle_Qle; exact Hi).
  assert (0 < 100 / inject_Z n) as Hd by (apply Qlt_shift_div_l; lra).
  assert (100 / inject_Z n * inject_Z n == 100) as E by (field; lra).
  generalize dependent (100 / inject_Z n). intros e He E. repeat split; try nra.
Qed.
Lemma reachable_inside b : reachable b -> inside b.
Proof.
  induction 1 as [|b L U _ IH H1 H2 H3|b i n _ IH Hi]; [unfold inside; cbn; lra|now apply subset_inside|].
  destruct (part_range i n Hi) as (P1 & P2 & P3). now apply subset_inside.
Qed.
Lemma clamp y : 0 <= y -> y <= 100 -> Qmin (Qmax 0 y) 100 == y.
Proof. intros H1 H2. rewrite (Q.max_r 0 y H1). now apply Q.min_l. Qed.
Lemma displayed_eq b x : inside b -> 0 <= x -> x <= 100 -> displayed b x == lower b + (upper b - lower b) * x / 100.
Proof. intros (H1 & H2 & H3) Hx Hx'. unfold displayed. destruct (scale_bounds (lower b) (upper b) x H2 Hx Hx') as [K1 K2]. apply clamp; lra. Qed.

(** C42: whatever subsets were taken, the displayed value lies in the range of the bar; the range of a
    subset lies in the range of its parent; the displayed value grows with the reported one. *)
Theorem C42_range : forall b, reachable b ->
  (forall x, 0 <= x -> x <= 100 -> lower b <= displayed b x /\ displayed b x <= upper b) /\
  (displayed b 0 == lower b /\ displayed b 100 == upper b) /\
  (forall x y, 0 <= x -> x <= y -> y <= 100 -> displayed b x <= displayed b y) /\
  (forall L U, 0 <= L -> L <= U -> U <= 100 -> lower b <= lower (subset b L U) /\ upper (subset b L U) <= upper b).
Proof.
  intros b Hb. apply reachable_inside in Hb. pose proof Hb as (H1 & H2 & H3). repeat split.
  - rewrite displayed_eq by assumption. now apply scale_bounds.
  - rewrite displayed_eq by assumption. now apply scale_bounds.
  - rewrite displayed_eq by (try assumption; lra). field.
  - rewrite displayed_eq by (try assumption; lra). field.
  - intros x y Hx Hxy Hy. rewrite !displayed_eq by (try assumption; lra). now apply scale_mono.
  - now apply subset_inside.
  - now apply subset_inside.
Qed.
Print Assumptions C42_range.

(** the parts of a bar follow each other without gap or overlap and cover it *)
Theorem C42_parts : forall b n, reachable b -> (0 < n)%Z ->
  lower (part b 0 n) == lower b /\ upper (part b (n - 1) n) == upper b /\
  (forall i, (0 <= i)%Z -> (i + 1 < n)%Z -> upper (part b i n) == lower (part b (i + 1) n)) /\
  (forall i, (0 <= i < n)%Z -> (upper (part b i n) - lower (part b i n)) * inject_Z n == upper b - lower b).
Proof.
  intros b n _ Hn. assert (~ inject_Z n == 0) as Hz by (intros E; apply (Qeq_alt) in E; assert (inject_Z 0 < inject_Z n) by (rewrite <- Zlt_Qlt; exact Hn); apply Qeq_alt in E; rewrite E in H; now apply Qlt_irrefl in H).
  unfold part, subset. cbn [lower upper]. repeat split.
  - change (inject_Z 0) with 0. field. exact Hz.
  - unfold Z.sub. rewrite inject_Z_plus, inject_Z_opp. change (inject_Z 1) with 1. field. exact Hz.
  - intros i _ _. rewrite inject_Z_plus. change (inject_Z 1) with 1. field. exact Hz.
  - intros i _. field. exact Hz.
Qed.
Print Assumptions C42_parts.

(** the bar is finished only by the outermost one, at 100 percent *)
Theorem C42_finish : forall b x, reachable b -> 0 <= x -> x <= 100 -> finishes b x = true -> displayed b x == 100 /\ b = new_pbar.
Proof.
  intros b x Hb Hx Hx' H. unfold finishes in H. apply andb_true_iff in H as [H Ht]. apply Qle_bool_iff in H.
  assert (b = new_pbar) as -> by (inversion Hb; subst; [reflexivity|discriminate|discriminate]). split; [|reflexivity].
  assert (inside new_pbar) as Hin by (apply reachable_inside; constructor). rewrite displayed_eq in * by assumption. cbn in *.
  destruct (scale_bounds 0 100 x) as [_ K]; try lra.
Qed.
Print Assumptions C42_finish.

Example C42_example : reachable (part (subset new_pbar 20 60) 1 4) /\
  displayed (part (subset new_pbar 20 60) 1 4) 50 == 35 /\ finishes new_pbar 100 = true.
Proof. split; [repeat constructor; try lia; unfold Qle; cbn; lia|]. split; vm_compute; reflexivity. Qed.
