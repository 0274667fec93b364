(** Proofs about the names made by a dataset. *)
From Coq Require Import ZArith List Bool String Ascii DecimalString Lia.
From Verif Require Import IndexModel IndexSpec ArrModel ViewModel AxisModel VarOpsModel DatasetModel.
From Verif Require ViewProofs.
Import ListNotations.
Open Scope list_scope.
Notation length := List.length.

Notation chars := list_ascii_of_string.
Lemma chars_app a b : chars (a ++ b)%string = chars a ++ chars b.
Proof. induction a as [|c a IH]; [reflexivity|]. cbn. now rewrite IH. Qed.
Lemma chars_inj a b : chars a = chars b -> a = b.
Proof. intros H. apply (f_equal string_of_list_ascii) in H. now rewrite !string_of_list_ascii_of_string in H. Qed.
Lemma app_assoc_s (a b c : string) : ((a ++ b) ++ c = a ++ (b ++ c))%string.
Proof. apply chars_inj. rewrite !chars_app. now rewrite <- app_assoc. Qed.

Fixpoint xs (k : nat) : string := match k with O => EmptyString | S k => String "x" (xs k) end.
Lemma chars_xs k : chars (xs k) = repeat "x"%char k.
Proof. induction k as [|k IH]; [reflexivity|]. cbn. now rewrite IH. Qed.
Lemma xs_snoc s k : ((s ++ "x") ++ xs k = s ++ xs (S k))%string.
Proof. now rewrite app_assoc_s. Qed.
Lemma app_nil_s s : (s ++ "" = s)%string.
Proof. apply chars_inj. rewrite chars_app. cbn. apply app_nil_r. Qed.
Lemma avoid_form fuel taken s : exists k, avoid fuel taken s = (s ++ xs k)%string.
Proof.
  revert s. induction fuel as [|f IH]; intros s; cbn [avoid]; destruct (mem s taken).
  - exists 0%nat. now rewrite app_nil_s.
  - exists 0%nat. now rewrite app_nil_s.
  - destruct (IH (s ++ "x")%string) as (k & ->). exists (S k). apply xs_snoc.
  - exists 0%nat. now rewrite app_nil_s.
Qed.
Lemma mem_In s l : mem s l = true <-> In s l.
Proof. unfold mem. rewrite existsb_exists. split; [intros (t & H & E); apply String.eqb_eq in E; now subst|]. intros H. exists s. split; [exact H|]. apply String.eqb_refl. Qed.
Lemma mem_not s l : mem s l = false <-> ~ In s l.
Proof. rewrite <- mem_In. destruct (mem s l); split; congruence. Qed.
Lemma avoid_stuck fuel taken s : In (avoid fuel taken s) taken -> forall k, (k <= fuel)%nat -> In (s ++ xs k)%string taken.
Proof.
  revert s. induction fuel as [|f IH]; intros s; cbn [avoid]; destruct (mem s taken) eqn:E.
  - intros H k Hk. replace k with 0%nat by lia. now rewrite app_nil_s.
  - apply mem_not in E. contradiction.
  - intros H [|k] Hk; [rewrite app_nil_s; now apply mem_In|]. rewrite <- xs_snoc. apply IH; [exact H|lia].
  - apply mem_not in E. contradiction.
Qed.
Lemma xs_inj s j k : (s ++ xs j = s ++ xs k)%string -> j = k.
Proof.
  intros H. apply (f_equal chars) in H. rewrite !chars_app, !chars_xs in H. apply app_inv_head in H. apply (f_equal (@length ascii)) in H. now rewrite !repeat_length in H.
Qed.
Lemma fresh_free taken old i : ~ In (fresh taken old i) taken.
Proof.
  unfold fresh. set (s := (old ++ fmt02 i)%string). intros H. pose proof (avoid_stuck _ _ _ H) as K.
  assert (NoDup (map (fun k => (s ++ xs k)%string) (seq 0 (S (length taken))))) as N.
  { apply FinFun.Injective_map_NoDup; [intros a b; apply xs_inj|apply seq_NoDup]. }
  apply NoDup_incl_length with (l' := taken) in N; [rewrite map_length, seq_length in N; lia|].
  intros t Ht. apply in_map_iff in Ht as (k & <- & Hk). apply in_seq in Hk. apply K. lia.
Qed.
Lemma fresh_form taken old i : exists k, fresh taken old i = (old ++ (fmt02 i ++ xs k))%string.
Proof. unfold fresh. destruct (avoid_form (length taken) taken (old ++ fmt02 i)) as (k & ->). exists k. apply app_assoc_s. Qed.

(** two digits *)
Definition digits2 (i : nat) : list ascii := chars (fmt02 i).
Definition check2 : bool := forallb (fun i => match digits2 i with [a; b] => negb (Ascii.eqb b "x") | _ => false end) (seq 0 100).
Lemma fmt02_two i : (i < 100)%nat -> exists a b, digits2 i = [a; b] /\ b <> "x"%char.
Proof.
  intros H. assert (check2 = true) as K by (vm_compute; reflexivity). unfold check2 in K. rewrite forallb_forall in K. specialize (K i ltac:(apply in_seq; lia)).
  destruct (digits2 i) as [|a [|b [|c l]]]; try discriminate. exists a, b. split; [reflexivity|]. intros ->. discriminate K.
Qed.
Definition check_inj : bool := forallb (fun i => forallb (fun j => implb (String.eqb (fmt02 i) (fmt02 j)) (Nat.eqb i j)) (seq 0 100)) (seq 0 100).
Lemma fmt02_inj i j : (i < 100)%nat -> (j < 100)%nat -> fmt02 i = fmt02 j -> i = j.
Proof.
  intros Hi Hj E. assert (check_inj = true) as K by (vm_compute; reflexivity). unfold check_inj in K. rewrite forallb_forall in K.
  specialize (K i ltac:(apply in_seq; lia)). cbv beta in K. rewrite forallb_forall in K. specialize (K j ltac:(apply in_seq; lia)). cbv beta in K.
  rewrite E, String.eqb_refl in K. now apply Nat.eqb_eq.
Qed.
Lemma rev_repeat {A} (x : A) k : List.rev (repeat x k) = repeat x k.
Proof. induction k as [|k IH]; [reflexivity|]. cbn [repeat List.rev]. rewrite IH. clear. induction k as [|k IH]; [reflexivity|]. cbn. now rewrite IH. Qed.
Lemma strip_x (x : ascii) j k b c l m : b <> x -> c <> x -> repeat x j ++ b :: l = repeat x k ++ c :: m -> j = k /\ b = c /\ l = m.
Proof.
  intros Hb Hc. revert k. induction j as [|j IH]; intros [|k]; cbn [repeat app]; intros E; injection E; try congruence.
  - intros; subst; auto.
  - intros H. destruct (IH k H) as (-> & -> & ->). auto.
Qed.
Lemma fresh_inj t1 o1 i t2 o2 j : (i < 100)%nat -> (j < 100)%nat -> fresh t1 o1 i = fresh t2 o2 j -> o1 = o2 /\ i = j.
Proof.
  intros Hi Hj E. destruct (fresh_form t1 o1 i) as (k & E1). destruct (fresh_form t2 o2 j) as (l & E2). rewrite E1, E2 in E.
  apply (f_equal (fun s => List.rev (chars s))) in E. rewrite !chars_app, !chars_xs, !rev_app_distr, !rev_repeat in E.
  destruct (fmt02_two i Hi) as (a & b & Ed & Hb). destruct (fmt02_two j Hj) as (c & d & Ee & Hd).
  unfold digits2 in *. rewrite Ed, Ee in E. cbn [List.rev app] in E. rewrite <- !app_assoc in E. cbn [app] in E.
  apply strip_x in E as (_ & -> & E); [|exact Hb|exact Hd]. injection E as -> E. apply (f_equal (@List.rev ascii)) in E. rewrite !rev_involutive in E.
  split; [now apply chars_inj|]. apply fmt02_inj; [exact Hi|exact Hj|]. apply chars_inj. now rewrite Ed, Ee.
Qed.

(** *** the names of the variables *)
Lemma occurrences_In n l : In n l -> (1 <= occurrences n l)%nat.
Proof. induction l as [|m l IH]; [intros []|]. intros [->|H]; cbn [occurrences]; [rewrite String.eqb_refl; lia|apply IH in H; lia]. Qed.
Lemma occurrences_app n l l' : occurrences n (l ++ l') = (occurrences n l + occurrences n l')%nat.
Proof. induction l as [|m l IH]; [reflexivity|]. cbn [app occurrences]. rewrite IH. lia. Qed.

(* what becomes of the name at each place *)
Lemma number_names_spec all count l : forall i n, nth_error l i = Some n ->
  nth_error (number_names all count l) i =
    Some (if Nat.eqb (occurrences n all) 1 then n else fresh all n (count n + occurrences n (firstn (S i) l))%nat).
Proof.
  revert count. induction l as [|m l IH]; intros count [|i] n H; try discriminate H.
  - injection H as ->. cbn [number_names nth_error firstn occurrences]. rewrite String.eqb_refl. destruct (Nat.eqb (occurrences n all) 1); cbn [nth_error]; [reflexivity|]. f_equal. f_equal. lia.
  - cbn [nth_error] in H. cbn [number_names]. destruct (Nat.eqb (occurrences m all) 1) eqn:E; cbn [nth_error]; rewrite (IH _ i n H).
    + destruct (Nat.eqb (occurrences n all) 1) eqn:E'; [reflexivity|]. do 2 f_equal. change (firstn (S (S i)) (m :: l)) with (m :: firstn (S i) l). cbn [occurrences].
      destruct (String.eqb_spec m n) as [->|N]; [congruence|lia].
    + destruct (Nat.eqb (occurrences n all) 1) eqn:E'; [reflexivity|]. do 2 f_equal. change (firstn (S (S i)) (m :: l)) with (m :: firstn (S i) l). cbn [occurrences].
      rewrite (String.eqb_sym n m). destruct (String.eqb_spec m n) as [->|N]; lia.
Qed.
Lemma number_names_length all count l : length (number_names all count l) = length l.
Proof. revert count. induction l as [|m l IH]; intros count; [reflexivity|]. cbn [number_names]. destruct (Nat.eqb _ _); cbn [length]; now rewrite IH. Qed.

Lemma occurrences_firstn n l i : nth_error l i = Some n -> occurrences n (firstn (S i) l) = S (occurrences n (firstn i l)).
Proof.
  revert i. induction l as [|m l IH]; intros [|i] H; try discriminate H.
  - injection H as ->. cbn [firstn occurrences]. rewrite String.eqb_refl. reflexivity.
  - cbn [nth_error] in H. change (firstn (S (S i)) (m :: l)) with (m :: firstn (S i) l). change (firstn (S i) (m :: l)) with (m :: firstn i l). cbn [occurrences]. rewrite (IH i H). lia.
Qed.
Lemma occurrences_firstn_le n l i j : (i <= j)%nat -> (occurrences n (firstn i l) <= occurrences n (firstn j l))%nat.
Proof.
  revert i j. induction l as [|m l IH]; intros i j H; [now rewrite !firstn_nil|]. destruct i as [|i]; [cbn [firstn occurrences]; lia|]. destruct j as [|j]; [lia|].
  cbn [firstn occurrences]. specialize (IH i j ltac:(lia)). lia.
Qed.
Lemma occurrences_firstn_all n l i : (occurrences n (firstn i l) <= occurrences n l)%nat.
Proof. rewrite <- (firstn_skipn i l) at 2. rewrite occurrences_app. lia. Qed.
Lemma occurrences_two n l i j : (i < j)%nat -> nth_error l i = Some n -> nth_error l j = Some n -> (2 <= occurrences n l)%nat.
Proof.
  intros Hij Hi Hj. pose proof (occurrences_firstn n l i Hi). pose proof (occurrences_firstn n l j Hj). pose proof (occurrences_firstn_le n l (S i) j ltac:(lia)).
  pose proof (occurrences_firstn_all n l (S j)). lia.
Qed.

Lemma names_length l : length (names l) = length l.
Proof. unfold names. now rewrite number_names_length, map_length. Qed.
Lemma names_at l i n : nth_error l i = Some n -> let m := default_name n in let all := map default_name l in
  nth_error (names l) i = Some (if Nat.eqb (occurrences m all) 1 then m else fresh all m (occurrences m (firstn (S i) all))).
Proof. intros H m all. exact (number_names_spec all (fun _ => 0%nat) all i m ltac:(unfold all; rewrite nth_error_map, H; reflexivity)). Qed.
Lemma names_unique l : (forall n, (occurrences n (map default_name l) < 100)%nat) -> NoDup (names l).
Proof.
  intros Hc. apply NoDup_nth_error. intros i j Hi E.
  assert (forall i j, (i < j)%nat -> (j < length l)%nat -> nth_error (names l) i <> nth_error (names l) j) as K.
  { clear i j Hi E. intros i j Hij Hj. destruct (nth_error l i) as [a|] eqn:Ea; [|apply nth_error_None in Ea; lia]. destruct (nth_error l j) as [b|] eqn:Eb; [|apply nth_error_None in Eb; lia].
    rewrite (names_at l i a Ea), (names_at l j b Eb). cbv zeta. set (all := map default_name l) in *.
    assert (nth_error all i = Some (default_name a)) as Ia by (unfold all; now rewrite nth_error_map, Ea).
    assert (nth_error all j = Some (default_name b)) as Ib by (unfold all; now rewrite nth_error_map, Eb).
    set (m := default_name a) in *. set (n := default_name b) in *. intros E. apply (f_equal (fun o => match o with Some s => s | None => ""%string end)) in E. cbv beta iota in E.
    destruct (Nat.eqb_spec (occurrences m all) 1) as [H1|H1], (Nat.eqb_spec (occurrences n all) 1) as [H2|H2].
    - rewrite E in *. pose proof (occurrences_two n all i j Hij Ia Ib). lia.
    - apply (fresh_free all n (occurrences n (firstn (S j) all))). rewrite <- E. eapply nth_error_In, Ia.
    - apply (fresh_free all m (occurrences m (firstn (S i) all))). rewrite E. eapply nth_error_In, Ib.
    - apply fresh_inj in E as [E E']; [|pose proof (occurrences_firstn_all m all (S i)); pose proof (Hc m); unfold all in *; lia|pose proof (occurrences_firstn_all n all (S j)); pose proof (Hc n); unfold all in *; lia].
      rewrite E in *. pose proof (occurrences_firstn n all j Ib). pose proof (occurrences_firstn_le n all (S i) j ltac:(lia)). lia. }
  rewrite names_length in Hi. destruct (Nat.lt_trichotomy i j) as [H|[H|H]]; [|exact H|].
  - exfalso. destruct (Nat.lt_ge_cases j (length l)) as [Hj|Hj]; [exact (K i j H Hj E)|]. assert (nth_error (names l) j = None) as N by (apply nth_error_None; rewrite names_length; exact Hj).
    rewrite N in E. apply nth_error_None in E. rewrite names_length in E. lia.
  - exfalso. exact (K j i H Hi (eq_sym E)).
Qed.
(* names that are there once and not empty stay *)
Lemma names_kept l i n : nth_error l i = Some n -> n <> ""%string -> occurrences n (map default_name l) = 1%nat -> nth_error (names l) i = Some n.
Proof.
  intros H Hn Ho. rewrite (names_at l i n H). cbv zeta. assert (default_name n = n) as ->; [|now rewrite Ho].
  unfold default_name. destruct (String.eqb_spec n ""); [contradiction|reflexivity].
Qed.
(* a list of different names is left alone *)
Lemma occurrences_NoDup n l : NoDup l -> (occurrences n l <= 1)%nat.
Proof.
  induction 1 as [|m l H _ IH]; [cbn; lia|]. cbn [occurrences]. destruct (String.eqb_spec m n) as [->|N]; [|lia].
  assert (occurrences n l = 0)%nat as ->; [|lia]. clear IH. induction l as [|k l IH]; [reflexivity|]. cbn [occurrences]. destruct (String.eqb_spec k n) as [->|]; [exfalso; apply H; now left|].
  apply IH. intros K. apply H. now right.
Qed.
Lemma names_same l : NoDup l -> ~ In ""%string l -> names l = l.
Proof.
  intros Hd He. assert (map default_name l = l) as El.
  { rewrite <- (map_id l) at 2. apply map_ext_in. intros n Hn. unfold default_name. destruct (String.eqb_spec n ""); [subst; contradiction|reflexivity]. }
  apply ViewProofs.nth_error_ext'. intros i. destruct (nth_error l i) as [n|] eqn:E.
  - apply names_kept; [exact E|intros ->; apply He; eapply nth_error_In, E|]. rewrite El.
    pose proof (occurrences_NoDup n l Hd). pose proof (occurrences_In n l (nth_error_In _ _ E)). lia.
  - apply nth_error_None in E. apply nth_error_None. now rewrite names_length.
Qed.
