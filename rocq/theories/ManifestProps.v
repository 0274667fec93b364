(** C75: what the manifest says of a file is what the file holds. *)
From Coq Require Import ZArith List Bool String Lia.
From Verif Require Import CfModel CfProofs ManifestModel.
Import ListNotations.
Open Scope Z_scope.
Open Scope list_scope.

(** an entry is right if it is all that can be read from the file now *)
Definition right {E} (fs : @files E) (f : string) (e : E) : Prop := exists t, fs f = Some (t, e, true).
(** the files that have been changed since are known to be newer than [time] *)
Definition recognised {E} (tick : Z) (fs : @files E) (time : Z) (table : list (string * E)) : Prop :=
  forall f e t e' ok, lookup f table = Some e -> fs f = Some (t, e', ok) -> right fs f e \/ time < whole tick t.
(** changed files are read before any file that was changed in the same second or later *)
Definition in_order {E} (tick : Z) (fs : @files E) (table : list (string * E)) (l : list string) : Prop :=
  forall f e t e' ok, lookup f table = Some e -> fs f = Some (t, e', ok) -> right fs f e \/
    forall pre g post t2 e2 ok2, l = pre ++ g :: post -> ~ In f pre -> g <> f -> fs g = Some (t2, e2, ok2) -> whole tick t2 < whole tick t.

Lemma lookup_put {E} f g (e : E) tab : lookup g (put f e tab) = if String.eqb g f then Some e else lookup g tab.
Proof.
  destruct (String.eqb_spec g f) as [->|H]; [apply lookup_put_same|]. apply lookup_put_other. now apply String.eqb_neq.
Qed.
Lemma scan_step {E} tick (fs : @files E) l m m' : recognised tick fs (m_time m) (m_table m) -> in_order tick fs (m_table m) l -> scan tick fs l m = (m', true) ->
  recognised tick fs (m_time m') (m_table m') /\ (forall f, In f l -> exists e, lookup f (m_table m') = Some e /\ right fs f e) /\
  (forall f e, lookup f (m_table m) = Some e -> right fs f e -> lookup f (m_table m') = Some e) /\ m_time m <= m_time m' /\
  (forall f, ~ In f l -> lookup f (m_table m') = lookup f (m_table m)).
Proof.
  revert m. induction l as [|f l IH]; intros m Hr Ho H; cbn [scan] in H.
  - injection H as <-. split; [exact Hr|]. split; [intros f []|]. split; [auto|]. split; [lia|reflexivity].
  - destruct (fs f) as [[[t e] ok]|] eqn:Ef; [|discriminate].
    assert (forall g, right fs g e -> g = f -> ok = true) as Hok by (intros g (t' & K) ->; congruence).
    destruct (match lookup f (m_table m) with Some _ => _ | None => _ end) eqn:Es.
    + destruct (lookup f (m_table m)) as [e0|] eqn:El; [|discriminate]. apply Z.leb_le in Es.
      assert (right fs f e0) as Hf by (destruct (Hr f e0 t e ok El Ef) as [K|K]; [exact K|lia]).
      assert (in_order tick fs (m_table m) l) as Ho'.
      { intros g e1 t1 e1' ok1 K1 K2. destruct (Ho g e1 t1 e1' ok1 K1 K2) as [K|K]; [now left|]. destruct (string_dec g f) as [->|Hgf]; [left; congruence|]. right.
        intros pre h post t2 e2 ok2 -> Hn Hne K3. apply (K (f :: pre) h post t2 e2 ok2); try assumption; [reflexivity|]. intros [->|Hin]; [now destruct Hgf|contradiction]. }
      destruct (IH m Hr Ho' H) as (A1 & A2 & A3 & A4 & A5). split; [exact A1|]. split; [intros g [<-|Hg]; [exists e0; split; [now apply A3|exact Hf]|now apply A2]|]. split; [exact A3|]. split; [exact A4|].
      intros g Hg. apply A5. intros K. apply Hg. now right.
    + destruct ok; [|discriminate]. set (m1 := Man (put f e (m_table m)) (Z.max (m_time m) (whole tick t)) true) in *.
      assert (right fs f e) as Hf by (exists t; exact Ef).
      assert (recognised tick fs (m_time m1) (m_table m1)) as Hr1.
      { intros g e1 t1 e1' ok1 K1 K2. cbn [m1 m_table m_time] in *. rewrite lookup_put in K1. destruct (String.eqb_spec g f) as [->|Hgf]; [injection K1 as <-; now left|].
        destruct (Hr g e1 t1 e1' ok1 K1 K2) as [K|K]; [now left|]. destruct (Ho g e1 t1 e1' ok1 K1 K2) as [K'|K']; [now left|]. right.
        assert (whole tick t < whole tick t1); [|lia]. apply (K' [] f l t e true); auto. }
      assert (in_order tick fs (m_table m1) l) as Ho1.
      { intros g e1 t1 e1' ok1 K1 K2. cbn [m1 m_table] in K1. rewrite lookup_put in K1. destruct (String.eqb_spec g f) as [->|Hgf]; [injection K1 as <-; now left|].
        destruct (Ho g e1 t1 e1' ok1 K1 K2) as [K|K]; [now left|]. right. intros pre h post t2 e2 ok2 -> Hn Hne K3. apply (K (f :: pre) h post t2 e2 ok2); try assumption; [reflexivity|]. intros [->|Hin]; [now destruct Hgf|contradiction]. }
      destruct (IH m1 Hr1 Ho1 H) as (A1 & A2 & A3 & A4 & A5). split; [exact A1|]. split; [|split; [|split]].
      * intros g [<-|Hg]; [exists e; split; [|exact Hf]; apply A3; [|exact Hf]; cbn [m1 m_table]; now rewrite lookup_put, String.eqb_refl|now apply A2].
      * intros g e1 K1 K2. apply A3; [|exact K2]. cbn [m1 m_table]. rewrite lookup_put. destruct (String.eqb_spec g f) as [->|_]; [|exact K1]. destruct K2 as (t1 & K2). congruence.
      * cbn [m1 m_time] in A4. lia.
      * intros g Hg. rewrite A5 by (intros K; apply Hg; now right). cbn [m1 m_table]. rewrite lookup_put. destruct (String.eqb_spec g f) as [->|_]; [exfalso; apply Hg; now left|reflexivity].
Qed.

(** without a manifest, what is found is what the files hold, whatever has happened before *)
Theorem C75_fresh : forall E tick (fs : @files E) l r, query tick fs l empty = Some r ->
  List.length r = List.length l /\ forall i f, nth_error l i = Some f -> exists e, nth_error r i = Some (Some e) /\ right fs f e.
Proof.
  intros E tick fs l r H. unfold query in H. destruct (scan tick fs l empty) as [m' [|]] eqn:Es; [|discriminate]. injection H as <-.
  destruct (scan_step tick fs l empty m') as (_ & A & _); [intros f e t e' ok K; discriminate|intros f e t e' ok K; discriminate|exact Es|].
  split; [now rewrite map_length|]. intros i f Hi. destruct (A f (nth_error_In _ _ Hi)) as (e & K1 & K2). exists e. split; [|exact K2]. now rewrite nth_error_map, Hi; cbn; rewrite K1.
Qed.
Print Assumptions C75_fresh.

(** ** histories *)
Definition disk_ok {E} tick (fs : @files E) (s : Z) (d : @stored E) : Prop := match d with NoFile => True | Stored t tab => recognised tick fs t tab /\ t <= whole tick s | Torn => False end.
(** time goes on ([now]); files are changed in a later second than that of the last scan ([s]); scans succeed and read changed files
    before newer ones; the process does not die while it saves *)
Definition allowed {E} (tick now s : Z) (w : @world E) (ev : @event E) : Prop :=
  match ev with
  | Write f (t, e, ok) => t = now /\ whole tick s < whole tick t
  | Scan l => in_order tick (w_files w) (m_table (w_man w)) l /\ snd (scan tick (w_files w) l (w_man w)) = true
  | Delete _ | Save | Restart => True
  | DieUntimed _ | DieTorn => False
  end.
Inductive history {E} (tick : Z) (fs0 : @files E) : Z -> Z -> @world E -> Prop :=
| Begin now : 0 <= now -> (forall f t e ok, fs0 f = Some (t, e, ok) -> t <= now) -> history tick fs0 now 0 (World fs0 empty NoFile)
| Next now s w ev now' w' : history tick fs0 now s w -> now <= now' -> allowed tick now' s w ev -> step tick w ev = Some w' ->
    history tick fs0 now' (match ev with Scan _ => now' | _ => s end) w'.
Lemma whole_mono tick a b : 0 < tick -> a <= b -> whole tick a <= whole tick b.
Proof. intros Ht H. unfold whole. apply Z.mul_le_mono_nonneg_r; [lia|]. now apply Z.div_le_mono. Qed.
Lemma scan_time {E} tick (fs : @files E) now l m m' b : 0 < tick -> (forall f t e ok, fs f = Some (t, e, ok) -> t <= now) -> scan tick fs l m = (m', b) ->
  m_time m' <= Z.max (m_time m) (whole tick now).
Proof.
  intros Ht Hf. revert m. induction l as [|f l IH]; intros m H; cbn [scan] in H; [injection H as <- _; lia|].
  destruct (fs f) as [[[t e] ok]|] eqn:Ef; [|injection H as <- _; lia]. destruct (match lookup f (m_table m) with Some _ => _ | None => _ end); [now apply IH|].
  assert (whole tick t <= whole tick now) by (apply whole_mono; [exact Ht|exact (Hf _ _ _ _ Ef)]).
  destruct ok; [apply IH in H|injection H as <- _]; cbn [m_time m_table] in *; lia.
Qed.

Lemma right_dec_put {E} (fs : @files E) f g x e : f <> g -> right fs g e -> right (set_file fs f x) g e.
Proof. intros Hne (t & H). exists t. unfold set_file. destruct (String.eqb_spec g f); [congruence|exact H]. Qed.
Lemma recognised_set {E} tick (fs : @files E) f x time tab : match x with Some (t, _, _) => time < whole tick t | None => True end ->
  recognised tick fs time tab -> recognised tick (set_file fs f x) time tab.
Proof.
  intros Hx H g e t e' ok K1 K2. unfold set_file in K2. destruct (String.eqb_spec g f) as [->|Hne].
  - subst x. right. exact Hx.
  - destruct (H g e t e' ok K1 K2) as [K|K]; [left; apply right_dec_put; [congruence|exact K]|now right].
Qed.
Lemma history_inv {E} tick (fs0 : @files E) now s w : 0 < tick -> history tick fs0 now s w ->
  recognised tick (w_files w) (m_time (w_man w)) (m_table (w_man w)) /\ disk_ok tick (w_files w) s (w_disk w) /\
  m_time (w_man w) <= whole tick s /\ 0 <= s <= now /\ forall f t e ok, w_files w f = Some (t, e, ok) -> t <= now.
Proof.
  intros Ht. assert (whole tick 0 = 0) as W0 by (unfold whole; now rewrite Z.div_0_l by lia).
  induction 1 as [now Hn Hf|now s [fs m d] ev now' w' _ (I1 & I2 & I3 & I4 & I5) Hle Ha Hs].
  { cbn [w_files w_man w_disk empty m_time m_table disk_ok]. split; [intros f e t e' ok K; discriminate|]. split; [exact Logic.I|]. split; [lia|]. split; [lia|exact Hf]. }
  cbn [w_files w_man w_disk] in *. assert (forall f t e ok, fs f = Some (t, e, ok) -> t <= now') as I5' by (intros f t e ok K; specialize (I5 f t e ok K); lia).
  assert (0 <= whole tick s) as Ws by (rewrite <- W0; apply whole_mono; lia).
  destruct ev as [f [[t e] ok]|f|l| | |u|]; cbn [step allowed w_files w_man w_disk] in *.
  - injection Hs as <-. cbn [w_files w_man w_disk]. destruct Ha as [-> H2]. split; [apply recognised_set; [lia|exact I1]|]. split; [|split; [exact I3|split; [lia|]]].
    + destruct d as [|td tab|]; cbn [disk_ok] in *; [exact Logic.I|destruct I2; split; [apply recognised_set; [lia|assumption]|assumption]|contradiction].
    + intros g t e0 ok0 K. unfold set_file in K. destruct (String.eqb g f); [injection K as <- _ _; lia|eauto].
  - injection Hs as <-. cbn [w_files w_man w_disk]. split; [now apply recognised_set|]. split; [|split; [exact I3|split; [lia|]]].
    + destruct d as [|td tab|]; cbn [disk_ok] in *; [exact Logic.I|destruct I2; split; [now apply recognised_set|assumption]|contradiction].
    + intros g t e0 ok0 K. unfold set_file in K. destruct (String.eqb g f); [discriminate|eauto].
  - injection Hs as <-. cbn [w_files w_man w_disk]. destruct Ha as [H1 H2]. destruct (scan tick fs l m) as [m' b] eqn:Es. cbn [snd fst] in *. subst b.
    assert (whole tick s <= whole tick now') as Wm by (apply whole_mono; lia).
    split; [now destruct (scan_step tick fs l m m' I1 H1 Es)|]. split; [|split; [|split; [lia|exact I5']]].
    + destruct d as [|td tab|]; cbn [disk_ok] in *; [exact Logic.I|destruct I2; split; [assumption|lia]|contradiction].
    + pose proof (scan_time tick fs now' l m m' true Ht I5' Es). lia.
  - unfold save in Hs. destruct (m_dirty m); injection Hs as <-; cbn [w_files w_man w_disk m_time m_table disk_ok]; (split; [assumption|]); (split; [try assumption; split; assumption|]); (split; [assumption|]); (split; [lia|exact I5']).
  - destruct d as [|td tab|]; cbn [load option_map] in Hs; [| |discriminate]; injection Hs as <-; cbn [w_files w_man w_disk m_time m_table empty disk_ok] in *.
    + split; [intros f e t e' ok K; discriminate|]. split; [exact Logic.I|]. split; [lia|]. split; [lia|exact I5'].
    + destruct I2 as [J1 J2]. split; [exact J1|]. split; [split; assumption|]. split; [exact J2|]. split; [lia|exact I5'].
  - contradiction.
  - contradiction.
Qed.

(** after any such history, what from_files finds of the files it is given is what they hold *)
Theorem C75_history : forall E tick (fs0 : @files E) now s w l r, 0 < tick -> history tick fs0 now s w -> in_order tick (w_files w) (m_table (w_man w)) l ->
  query tick (w_files w) l (w_man w) = Some r ->
  List.length r = List.length l /\ forall i f, nth_error l i = Some f -> exists e, nth_error r i = Some (Some e) /\ right (w_files w) f e.
Proof.
  intros E tick fs0 now s w l r Ht Hw Ho H. destruct (history_inv tick fs0 now s w Ht Hw) as [Hr _]. unfold query in H. destruct (scan tick (w_files w) l (w_man w)) as [m' [|]] eqn:Es; [|discriminate]. injection H as <-.
  destruct (scan_step tick (w_files w) l (w_man w) m' Hr Ho Es) as (_ & A & _).
  split; [now rewrite map_length|]. intros i f Hi. destruct (A f (nth_error_In _ _ Hi)) as (e & K1 & K2). exists e. split; [|exact K2]. now rewrite nth_error_map, Hi; cbn; rewrite K1.
Qed.
Print Assumptions C75_history.
(** in particular if no more than one file known to the manifest has been changed since, and that file is newer than the others *)
Theorem C75_one_changed : forall E tick (fs : @files E) tab l f0, (forall f e t e' ok, f <> f0 -> lookup f tab = Some e -> fs f = Some (t, e', ok) -> right fs f e) ->
  (forall g t e ok t0 e0 ok0, In g l -> g <> f0 -> fs g = Some (t, e, ok) -> fs f0 = Some (t0, e0, ok0) -> whole tick t < whole tick t0) -> in_order tick fs tab l.
Proof.
  intros E tick fs tab l f0 H1 H2 f e t e' ok K1 K2. destruct (string_dec f f0) as [->|Hne]; [|left; eauto]. right. intros pre g post t2 e2 ok2 -> _ Hg K3. eapply H2; eauto. apply in_app_iff. right. now left.
Qed.
Print Assumptions C75_one_changed.

(** ** what is not so *)
Definition two_files : @files Z := fun f => if String.eqb f "a" then Some (10, 1, true) else if String.eqb f "b" then Some (10, 2, true) else None.
Definition both := ["a"; "b"]%string.
Definition scanned : @world Z := World two_files (Man [("a"%string, 1); ("b"%string, 2)] 10 true) NoFile.
Lemma scanned_history : history 10 two_files 12 12 scanned.
Proof.
  apply (Next 10 two_files 10 0 (World two_files empty NoFile) (Scan both)); [|lia| |vm_compute; reflexivity].
  - apply Begin; [lia|]. intros f t e ok. unfold two_files. destruct (String.eqb f "a"); [intros [= <- _ _]; lia|]. destruct (String.eqb f "b"); [intros [= <- _ _]; lia|discriminate].
  - split; [intros f e t e' ok K; discriminate|reflexivity].
Qed.
(** two files known to the manifest are changed, the second in the list before the first: the change of the second is not noticed, because the time
    of the manifest moves while the list is gone through *)
Theorem C75_two_changed_refuted : exists now s w r, history 10 two_files now s w /\ query 10 (w_files w) both (w_man w) = Some r /\
  nth_error r 1 = Some (Some 2) /\ ~ right (w_files w) "b" 2.
Proof.
  set (fs := set_file (set_file two_files "b" (Some (20, 20, true))) "a" (Some (30, 30, true))). exists 30, 12, (World fs (w_man scanned) NoFile). eexists. split; [|split; [vm_compute; reflexivity|split; [reflexivity|]]].
  - apply (Next 10 two_files 20 12 (World (set_file two_files "b" (Some (20, 20, true))) (w_man scanned) NoFile) (Write "a" (30, 30, true))); [|lia|split; reflexivity|reflexivity].
    apply (Next 10 two_files 12 12 scanned (Write "b" (20, 20, true))); [exact scanned_history|lia|split; reflexivity|reflexivity].
  - intros (t & H). discriminate.
Qed.
Print Assumptions C75_two_changed_refuted.
(** a change in the second in which the manifest was made is not noticed *)
Theorem C75_same_second_refuted : exists w r, step 10 scanned (Write "b"%string (17, 20, true)) = Some w /\ query 10 (w_files w) both (w_man w) = Some r /\
  nth_error r 1 = Some (Some 2) /\ ~ right (w_files w) "b" 2.
Proof. do 2 eexists. split; [reflexivity|]. split; [vm_compute; reflexivity|]. split; [reflexivity|]. intros (t & H). discriminate. Qed.
Print Assumptions C75_same_second_refuted.
(** a process that dies while it writes the manifest leaves one with which no later process can start *)
Theorem C75_torn_refuted : forall E tick (w : @world E), m_dirty (w_man w) = true -> step tick w DieTorn = None /\ load (save_torn (w_man w) (w_disk w)) = None.
Proof. intros E tick [fs m d] H. cbn [w_man w_disk] in *. cbn [step]. unfold save_torn. rewrite H. split; reflexivity. Qed.
Print Assumptions C75_torn_refuted.
(** a process that dies after writing the manifest and before setting its time: a change made between scan and save is never noticed *)
Theorem C75_untimed_refuted : exists w1 w2 r, step 10 scanned (Write "b"%string (50, 20, true)) = Some w1 /\ step 10 w1 (DieUntimed 60) = Some w2 /\
  query 10 (w_files w2) both (w_man w2) = Some r /\ nth_error r 1 = Some (Some 2) /\ ~ right (w_files w2) "b" 2.
Proof. do 3 eexists. split; [reflexivity|]. split; [reflexivity|]. split; [vm_compute; reflexivity|]. split; [reflexivity|]. intros (t & H). discriminate. Qed.
Print Assumptions C75_untimed_refuted.
(** a file that could not be read: the second scan with the same manifest does not try again, and succeeds with what was read before the failure *)
Theorem C75_failed_refuted : exists (fs : @files Z) m, scan 10 fs ["a"%string] empty = (m, false) /\ query 10 fs ["a"%string] m = Some [Some 0] /\ ~ right fs "a" 0.
Proof. exists (fun _ => Some (10, 0, false)). eexists. split; [vm_compute; reflexivity|]. split; [vm_compute; reflexivity|]. intros (t & H). discriminate. Qed.
Print Assumptions C75_failed_refuted.

(** the hypotheses can be met: two files are scanned, the manifest is saved, one file is changed, and a new process finds the change *)
Definition later : @world Z := World (set_file two_files "b" (Some (23, 20, true))) (Man [("a"%string, 1); ("b"%string, 2)] 10 false) (Stored 10 [("a"%string, 1); ("b"%string, 2)]).
Example C75_example : history 10 two_files 40 12 later /\ in_order 10 (w_files later) (m_table (w_man later)) both /\ query 10 (w_files later) both (w_man later) = Some [Some 1; Some 20] /\
  query 10 two_files both empty = Some [Some 1; Some 2].
Proof.
  split; [|split; [|split; vm_compute; reflexivity]].
  - apply (Next 10 two_files 23 12 (World (set_file two_files "b" (Some (23, 20, true))) (Man [("a"%string, 1); ("b"%string, 2)] 10 false) (Stored 10 [("a"%string, 1); ("b"%string, 2)])) Restart); [|lia|exact Logic.I|reflexivity].
    apply (Next 10 two_files 15 12 (World two_files (Man [("a"%string, 1); ("b"%string, 2)] 10 false) (Stored 10 [("a"%string, 1); ("b"%string, 2)])) (Write "b" (23, 20, true))); [|lia|split; reflexivity|reflexivity].
    apply (Next 10 two_files 12 12 scanned Save); [exact scanned_history|lia|exact Logic.I|reflexivity].
  - apply (C75_one_changed Z 10 _ _ _ "b").
    + intros f e t e' ok Hf K1 K2. cbn in K1. destruct (String.eqb_spec f "a") as [->|_]; [injection K1 as <-; now exists 10|]. destruct (String.eqb_spec f "b") as [->|_]; [now destruct Hf|discriminate].
    + intros g t e ok t0 e0 ok0 [<-|[<-|[]]] Hg K1 K2; [|now destruct Hg]. vm_compute in K1, K2. injection K1 as <- _ _. injection K2 as <- _ _. reflexivity.
Qed.

(** known files that are not newer than the manifest are not read at all *)
Theorem C75_not_read : forall E tick (fs : @files E) l m,
  (forall f, In f l -> exists e t e' ok, lookup f (m_table m) = Some e /\ fs f = Some (t, e', ok) /\ whole tick t <= m_time m) -> scan tick fs l m = (m, true).
Proof.
  intros E tick fs l m. induction l as [|f l IH]; intros H; [reflexivity|]. cbn [scan]. destruct (H f (or_introl eq_refl)) as (e & t & e' & ok & H1 & H2 & H3). rewrite H2, H1.
  destruct (Z.leb_spec (whole tick t) (m_time m)); [|lia]. apply IH. intros g Hg. apply H. now right.
Qed.
Print Assumptions C75_not_read.
Example C75_not_read_example : scan 10 two_files both (w_man scanned) = (w_man scanned, true).
Proof.
  apply C75_not_read. intros f [<-|[<-|[]]]; do 4 eexists; (split; [reflexivity|]; split; [reflexivity|]); vm_compute; discriminate.
Qed.
