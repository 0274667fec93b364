(** C52: variables that are spread over many files. *)
From Coq Require Import ZArith List Bool Lia ZifyBool Permutation QArith_base Qcanon.
From Verif Require Import CalModel CalSpec CalProofs TimeSearchModel TimeSearchSpec SortSpec IndexModel IndexSpec IndexProofs ArrModel ArrProofs
  ViewModel ViewSpec ViewProofs AxisModel AxisSpec AxisProofs VarOpsModel VarOpsSpec VarOpsProofs NumModel NumProofs ReduceModel ReduceSpec StencilModel StencilSpec StencilProofs
  ConcatModel ConcatSpec ClimModel ClimSpec ClimView MultiFileModel MultiFileSpec MultiFileRead MultiFileProofs MultiFileView
  EnvExample ViewProps ReduceProps WindowProps ClimProps.
Import ListNotations.
Open Scope Z_scope.
Notation zlen := IndexSpec.zlen.
Notation znth := ArrModel.znth.


Lemma time_of_place A ti t K p : nth_error A ti = Some (Time t) -> Forall2 selection A K -> position (map zlen K) p -> nth ti (gather K p) 0 = znth (nth ti K []) (nth ti p 0).
Proof.
  intros Ht HK Hp. pose proof (Forall2_len _ _ _ HK) as E1. pose proof (Forall2_len _ _ _ Hp) as E2. rewrite map_length in E2. assert (ti < length K)%nat as Hl by (rewrite <- E1; apply nth_error_Some; congruence).
  apply nth_gather'; [congruence|]. destruct (nth_error K ti) as [l|] eqn:El; [|apply nth_error_None in El; lia]. f_equal. symmetry. apply nth_error_nth. exact El.
Qed.

(** Whatever is returned: every element comes from a file that holds exactly the time in question (also when files overlap, or are out of order). *)
Theorem C52_right_times : forall env lexsort junk, env_ok env -> lexsort_ok lexsort -> forall A ti t files faxis contents, archive env A ti t files faxis contents ->
  forall K r, Forall2 selection A K -> multi_view env lexsort junk files faxis (view_of_inds A K) = Some r ->
  shape r = map zlen K /\
  forall p, position (map zlen K) p -> exists k j, holds_time t files contents k (nth ti (gather K p) 0) j /\ val r p = snd (contents k) (set_at (gather K p) ti j).
Proof.
  intros env lexsort junk Henv Hlex A ti t files faxis contents (Hsep & Ht & Ho & Gt & Gf & Hc & Hl & Hin) K r HK Hr.
  destruct (view_from env Henv lexsort Hlex junk A ti t Ht Gt Ho files faxis Gf Hl Hc contents Hin K HK r Hr) as (H1 & H2 & _). split; [exact H1|].
  intros p Hp. destruct (H2 p Hp) as (k & x & j & Hx & [Hi Hj] & E). exists k, j. split; [|exact E]. split; [exists x; exact Hx|].
  rewrite (time_of_place A ti t K p Ht HK Hp). exact Hj.
Qed.
Print Assumptions C52_right_times.

(** When every time is held by the last file that does not begin after it, and by no other file, every request is answered, with the data of that file. *)
Theorem C52_tidy : forall env lexsort junk, env_ok env -> lexsort_ok lexsort -> forall A ti t files faxis contents, archive env A ti t files faxis contents -> in_order faxis ->
  (forall i, 0 <= i < zlen (t_dates t) -> exists k j, own_file faxis (moment t i) k /\ holds_time t files contents k i j) ->
  (forall i k j k' j', holds_time t files contents k i j -> holds_time t files contents k' i j' -> k = k') ->
  forall D, (forall p k j, position (map axis_len A) p -> holds_time t files contents k (nth ti p 0) j -> D p = snd (contents k) (set_at p ti j)) ->
  responds env (Var A (GetView (multi_view env lexsort junk files faxis))) D.
Proof.
  intros env lexsort junk Henv Hlex A ti t files faxis contents Ha Hord Hown Hone D HD. pose proof Ha as (Hsep & Ht & Ho & Gt & Gf & Hc & Hl & Hin).
  split; [exact Hsep|]. cbn [var_source var_axes]. intros K HK. destruct (Kt_choice A ti t Ht K HK) as (Kne & Kr & Ki).
  assert (forall i, 0 <= i < zlen (nth ti K []) -> 0 <= znth (nth ti K []) i < zlen (t_dates t)) as Hrange.
  { intros i Hi. apply (proj1 (Forall_forall _ _) Kr). apply elem_In with (k := i). apply elem_znth. exact Hi. }
  destruct (view_tidy env Henv lexsort Hlex junk A ti t Ht Gt Ho files faxis Gf Hl Hc contents Hin K HK) as [r Hr].
  - intros i k k' x x' j j' Hx Hx' [_ Hj] [_ Hj']. apply (Hone (znth (nth ti K []) i) k j k' j'); (split; [eauto|assumption]).
  - intros i Hi. destruct (Hown _ (Hrange i Hi)) as (k & j & Hk & (x & Hx) & Hj). exists x, j.
    assert (wrapped (zlen files) (index_of_time ti t faxis K i) = k) as ->; [|split; [exact Hx|split; [exact Hi|exact Hj]]].
    unfold index_of_time. rewrite (own_index faxis Gf Hord _ k (moment_valid faxis t _ Hc Gt (Hrange i Hi)) Hk). unfold wrapped. destruct Hk as [Hk _]. destruct (Z.ltb_spec k 0); lia.
  - exists r. split; [exact Hr|]. destruct (C52_right_times env lexsort junk Henv Hlex A ti t files faxis contents Ha K r HK Hr) as [R1 R2]. split; [exact R1|].
    intros p Hp. destruct (R2 p Hp) as (k & j & Hk & ->). symmetry. apply HD; [|exact Hk].
    apply gather_position; [|exact Hp]. clear -HK. induction HK as [|a l ? ? H _ IH]; constructor; [exact (proj1 (proj2 H))|exact IH].
Qed.
Print Assumptions C52_tidy.

(** A request is refused, not filled with NaNs, when one of its times is in no file, or the file it should be in cannot be read. *)
Theorem C52_missing : forall env lexsort junk, env_ok env -> lexsort_ok lexsort -> forall A ti t files faxis contents, archive env A ti t files faxis contents ->
  forall K i, Forall2 selection A K -> In i (nth ti K []) ->
  ((forall k j, ~ holds_time t files contents k i j) \/ (in_order faxis /\ exists k, own_file faxis (moment t i) k /\ nth_error files (Z.to_nat k) = Some None)) ->
  multi_view env lexsort junk files faxis (view_of_inds A K) = None.
Proof.
  intros env lexsort junk Henv Hlex A ti t files faxis contents Ha K i HK Hi Hmiss. pose proof Ha as (Hsep & Ht & Ho & Gt & Gf & Hc & Hl & Hin).
  destruct (multi_view env lexsort junk files faxis (view_of_inds A K)) as [r|] eqn:Er; [|reflexivity]. exfalso.
  apply In_elem in Hi as (n & Hn). pose proof (elem_range _ _ _ Hn) as Hr. pose proof (znth_elem _ _ _ Hn) as En.
  destruct (Kt_choice A ti t Ht K HK) as (Kne & Kr & Ki).
  assert (0 <= i < zlen (t_dates t)) as Hit by (apply (proj1 (Forall_forall _ _) Kr); apply elem_In with (k := n); exact Hn).
  destruct Hmiss as [Hmiss|(Hord & k & Hk & Hf)].
  - destruct (C52_right_times env lexsort junk Henv Hlex A ti t files faxis contents Ha K r HK Er) as [R1 R2].
    set (p := set_at (repeat 0 (length K)) ti n).
    assert (position (map zlen K) p) as Hp.
    { apply position_set with (n := zlen (nth ti K [])); [|rewrite nth_error_map, (Kt_at A ti t Ht K HK); reflexivity|exact Hr]. clear -HK. induction HK as [|a l ? ? H _ IH]; [constructor|]. cbn [map length repeat]. constructor; [|exact IH].
      destruct H as [H _]. destruct l; [contradiction|unfold zlen; cbn; lia]. }
    destruct (R2 p Hp) as (k & j & Hkj & _). rewrite (time_of_place A ti t K p Ht HK Hp) in Hkj. unfold p in Hkj. rewrite nth_set_same in Hkj.
    + rewrite En in Hkj. exact (Hmiss k j Hkj).
    + rewrite repeat_length, <- (Forall2_len _ _ _ HK). apply nth_error_Some. congruence.
  - destruct (view_from env Henv lexsort Hlex junk A ti t Ht Gt Ho files faxis Gf Hl Hc contents Hin K HK r Er) as (_ & _ & H3).
    destruct (H3 n Hr) as [x Hx]. unfold index_of_time in Hx. rewrite En in Hx. rewrite (own_index faxis Gf Hord _ k (moment_valid faxis t _ Hc Gt Hit) Hk) in Hx.
    unfold wrapped in Hx. destruct Hk as [Hk _]. destruct (Z.ltb_spec k 0); [lia|]. destruct Hx as [_ Hx]. rewrite Hf in Hx. discriminate.
Qed.
Print Assumptions C52_missing.

(** *** a case where all of this applies: two files *)
Definition jan (ds : list Z) : taxis :=
  MkTime [3; 5] Std (mkpdate (Some 2000) (Some 1) (Some 1) None None None) Days (mkmask true true true false false false)
    (map (fun d => mkdate 2000 1 d 0 0 0) ds) (map (fun d => (86400 * (d - 1)) # 86400) ds).
Ltac jan_good := split; [vm_compute; split; discriminate|]; split; [|split; [discriminate|split; [vm_compute; reflexivity|split]]];
  [assert (forall y, month_length Std y 1 31) as M3 by (intros y; apply ml_31; auto); repeat constructor; try (cbn; lia); exists 31; (split; [apply M3|cbn; lia])
  |cbn; repeat (constructor; [cbn; intros H; repeat (destruct H as [H|H]; [discriminate|]); exact H|]); constructor
  |vm_compute; repeat constructor; discriminate].
(** January 1st to 3rd; the first file holds the first two days, the second one has no time axis and is for the third day *)
Definition first_file : var axis num := source [Time (jan [1; 2]); lat2] (fun q => num_of_Z (100 + 10 * nth 0 q 0 + nth 1 q 0)).
Definition second_file : var axis num := source [lat2] (fun q => num_of_Z (300 + nth 0 q 0)).
Definition two_files : list (option (var axis num)) := [Some first_file; Some second_file].
Definition two_contents (k : Z) : taxis * (list Z -> num) :=
  if k =? 0 then (jan [1; 2], fun q => num_of_Z (100 + 10 * nth 0 q 0 + nth 1 q 0)) else (jan [3], fun q => num_of_Z (300 + nth 1 q 0)).
Definition all_days (q : list Z) : num := if nth 0 q 0 =? 2 then num_of_Z (300 + nth 1 q 0) else num_of_Z (100 + 10 * nth 0 q 0 + nth 1 q 0).
Lemma day1_2_good : good_axis (Time (jan [1; 2])). Proof. jan_good. Qed.
Lemma day1_3_good : good_axis (Time (jan [1; 3])). Proof. jan_good. Qed.
Lemma day3_good : good_axis (Time (jan [3])). Proof. jan_good. Qed.
Lemma day1_2_3_good : good_axis (Time (jan [1; 2; 3])). Proof. jan_good. Qed.
Lemma two_archive : archive env0 [Time (jan [1; 2; 3]); lat2] 0 (jan [1; 2; 3]) two_files (jan [1; 3]) two_contents.
Proof.
  split; [two_axes|]. split; [reflexivity|]. split; [intros [|[|i]] s H; [reflexivity|discriminate|destruct i; discriminate]|].
  split; [exact day1_2_3_good|]. split; [exact day1_3_good|]. split; [reflexivity|]. split; [reflexivity|].
  intros k x [Hk H]. destruct (Z.to_nat k) as [|[|n]] eqn:E; cbn in H; [| |destruct n; discriminate]; injection H as <-.
  - assert (k = 0) as -> by lia. split; [exact day1_2_good|]. split; [reflexivity|]. split; [reflexivity|]. left. split; [apply source_responds; two_axes|]. split; [reflexivity|].
    split; [reflexivity|]. split; [|split].
    + intros [|[|j]] a b Ha Hb; try (destruct j; discriminate); injection Ha as <-; injection Hb as <-; reflexivity.
    + intros [|[|j]] a b Hj Ha Hb; try (destruct j; discriminate); [contradiction|]. injection Ha as <-; injection Hb as <-; reflexivity.
    + intros [|[|i]] [|[|j]] a b Hj Ha Hb; try (destruct j; discriminate); try (destruct i; discriminate); try contradiction; injection Ha as <-; injection Hb as <-; vm_compute; auto.
  - assert (k = 1) as -> by lia. split; [exact day3_good|]. split; [reflexivity|]. split; [reflexivity|]. right. exists (fun q => num_of_Z (300 + nth 0 q 0)).
    split; [apply source_responds; intros [|i] [|j] a b Ha Hb Hne; cbn in Ha, Hb; try congruence; try (destruct i; discriminate); try (destruct j; discriminate)|]. split; [cbn; lia|]. split; [|split].
    + split; [reflexivity|]. split; [|split].
      * intros [|[|j]] a b Ha Hb; try (destruct j; discriminate); injection Ha as <-; injection Hb as <-; reflexivity.
      * intros [|[|j]] a b Hj Ha Hb; try (destruct j; discriminate); [contradiction|]. injection Ha as <-; injection Hb as <-; reflexivity.
      * intros [|[|i]] [|[|j]] a b Hj Ha Hb; try (destruct j; discriminate); try (destruct i; discriminate); try contradiction; injection Ha as <-; injection Hb as <-; vm_compute; auto.
    + vm_compute. repeat split.
    + intros [|a [|b p]]; reflexivity.
Qed.
Lemma jan_order : in_order (jan [1; 3]).
Proof. intros i j H1 H2. unfold zlen in H2. cbn in H2. assert (i = 0) as -> by lia. assert (j = 1) as -> by lia. vm_compute. auto 10. Qed.
Lemma held k i j : holds_time (jan [1; 2; 3]) two_files two_contents k i j -> (k = 0 /\ i = 0 /\ j = 0) \/ (k = 0 /\ i = 1 /\ j = 1) \/ (k = 1 /\ i = 2 /\ j = 0).
Proof.
  intros [[x Hx] (Hi & Hj & E)]. apply elem_range in Hx. unfold zlen in Hx, Hi. cbn in Hx, Hi.
  assert (k = 0 \/ k = 1) as [-> | ->] by lia; unfold zlen in Hj; cbn in Hj; assert (i = 0 \/ i = 1 \/ i = 2) as [-> |[-> | ->]] by lia;
    try (assert (j = 0) as -> by lia); try (assert (j = 0 \/ j = 1) as [-> | ->] by lia); auto; exfalso; vm_compute in E; discriminate.
Qed.
Example C52_used : responds env0 (Var [Time (jan [1; 2; 3]); lat2] (GetView (multi_view env0 row_sort zs two_files (jan [1; 3])))) all_days.
Proof.
  apply (C52_tidy env0 row_sort zs env0_ok row_sort_ok _ 0 (jan [1; 2; 3]) two_files (jan [1; 3]) two_contents two_archive jan_order).
  - intros i Hi. unfold zlen in Hi. cbn in Hi.
    assert (forall k, (forall j, k < j < 2 -> earlier (moment (jan [1; 2; 3]) i) (moment (jan [1; 3]) j)) -> 0 <= k < 2 -> ~ earlier (moment (jan [1; 2; 3]) i) (moment (jan [1; 3]) k) ->
              own_file (jan [1; 3]) (moment (jan [1; 2; 3]) i) k) as Hown by (intros k H1 H2 H3; split; [exact H2|split; [exact H3|exact H1]]).
    assert (i = 0 \/ i = 1 \/ i = 2) as [-> |[-> | ->]] by lia; [exists 0, 0|exists 0, 1|exists 1, 0]; (split; [apply Hown; [intros j Hj|lia|intros He; vm_compute in He; intuition discriminate]|split; [eexists; split; [lia|reflexivity]|vm_compute; repeat split; discriminate]]).
    + assert (j = 1) as -> by lia. vm_compute. auto 10.
    + assert (j = 1) as -> by lia. vm_compute. auto 10.
    + lia.
  - intros i k j k' j' H H'. apply held in H. apply held in H'. lia.
  - intros p k j Hp H. apply held in H. unfold all_days, two_contents. inversion Hp as [|n a s p' Ha Hp']; subst. cbn [nth] in *.
    destruct H as [(-> & -> & ->)|[(-> & -> & ->)|(-> & -> & ->)]]; reflexivity.
Qed.
Example C52_example :
  show (Some (Var [Time (jan [1; 2; 3]); lat2] (GetView (multi_view env0 row_sort zs two_files (jan [1; 3]))))) [[1; 2]; [0; 1]] [[0; 0]; [0; 1]; [1; 0]; [1; 1]]
    = Some ([2; 2], [Some 110; Some 111; Some 300; Some 301]%Q) /\
  show (Some (Var [Time (jan [1; 2; 3]); lat2] (GetView (multi_view env0 row_sort zs [Some first_file; None] (jan [1; 3]))))) [[1; 2]; [0; 1]] [[0; 0]] = None.
Proof. split; vm_compute; reflexivity. Qed.

(** With files that overlap the value for a given time depends on what else is asked for: the file with the date of January 1st holds the 1st and the 2nd,
    that with the date of the 3rd holds the 2nd (with another value) and the 3rd. *)
Definition late_file : var axis num := source [Time (jan [2; 3])] (fun q => num_of_Z (300 + nth 0 q 0)).
Definition early_file : var axis num := source [Time (jan [1; 2])] (fun q => num_of_Z (100 + nth 0 q 0)).
Theorem C52_overlap_refuted : exists lexsort junk A files faxis r1 r2, lexsort_ok lexsort /\
  multi_view env0 lexsort junk files faxis (view_of_inds A [[1]]) = Some r1 /\ multi_view env0 lexsort junk files faxis (view_of_inds A [[1; 2]]) = Some r2 /\
  val r1 [0] <> val r2 [0].
Proof.
  exists row_sort, zs, [Time (jan [1; 2; 3])], [Some early_file; Some late_file], (jan [1; 3]).
  assert (option_map (fun r => number (val r [0])) (multi_view env0 row_sort zs [Some early_file; Some late_file] (jan [1; 3]) (view_of_inds [Time (jan [1; 2; 3])] [[1]])) = Some (Some 101%Q)) as F1 by (vm_compute; reflexivity).
  assert (option_map (fun r => number (val r [0])) (multi_view env0 row_sort zs [Some early_file; Some late_file] (jan [1; 3]) (view_of_inds [Time (jan [1; 2; 3])] [[1; 2]])) = Some (Some 300%Q)) as F2 by (vm_compute; reflexivity).
  destruct (multi_view env0 row_sort zs [Some early_file; Some late_file] (jan [1; 3]) (view_of_inds [Time (jan [1; 2; 3])] [[1]])) as [r1|]; [|discriminate].
  destruct (multi_view env0 row_sort zs [Some early_file; Some late_file] (jan [1; 3]) (view_of_inds [Time (jan [1; 2; 3])] [[1; 2]])) as [r2|]; [|discriminate].
  exists r1, r2. split; [exact row_sort_ok|]. split; [reflexivity|]. split; [reflexivity|]. cbn [option_map] in F1, F2. intros E. rewrite E in F1. rewrite F1 in F2. discriminate.
Qed.
Print Assumptions C52_overlap_refuted.

(** A time before the date of the first file makes the last file be opened: all three times can be read together, but not the first one alone, nor the first two,
    even though the first file holds them (its name says the 2nd, it begins with the 1st). *)
Theorem C52_wraparound_refuted : exists lexsort junk A files faxis r, lexsort_ok lexsort /\
  multi_view env0 lexsort junk files faxis (view_of_inds A [[0; 1; 2]]) = Some r /\
  multi_view env0 lexsort junk files faxis (view_of_inds A [[0]]) = None /\ multi_view env0 lexsort junk files faxis (view_of_inds A [[0; 1]]) = None.
Proof.
  exists row_sort, zs, [Time (jan [1; 2; 3])], [Some early_file; Some (source [Time (jan [3])] (fun _ => zero))], (jan [2; 3]).
  match goal with |- context [multi_view ?e ?l ?j ?f ?x (view_of_inds ?A [[0; 1; 2]])] => assert (option_map (fun r => number (val r [0])) (multi_view e l j f x (view_of_inds A [[0; 1; 2]])) <> None) as F by (vm_compute; discriminate);
    destruct (multi_view e l j f x (view_of_inds A [[0; 1; 2]])) as [r|]; [|destruct (F eq_refl)] end.
  exists r. split; [exact row_sort_ok|]. split; [reflexivity|]. split; vm_compute; reflexivity.
Qed.
Print Assumptions C52_wraparound_refuted.
