(** C31: selection by keywords, with the means and the squeezes *)
From Coq Require Import ZArith List Bool Lia QArith_base Qcanon Qcabs String Ascii.
From Verif Require Import SortSpec IndexModel IndexSpec IndexProofs ArrModel ViewModel ViewSpec AxisModel AxisSpec VarOpsModel VarOpsSpec VarOpsProofs EnvExample ViewProps
  NumModel ReduceModel ReduceSpec ReduceProps StencilModel SelectModel SelectSpec SelectProofs SelectProps CallModel CallSpec CallProofs.
Import ListNotations.
Open Scope Z_scope.
Open Scope string_scope.
Open Scope list_scope.

(** C31: var(m_lon=(0, 90), s_lat=45, ...) is the variable sliced as C31_call_partial says; then averaged over the axes named in
    keywords with the letter m, with the weights of the axis if it has any; then without the axes named in keywords with the
    letter s that have one element left.  [inds]: the elements selected on each axis, [zs]: the axes sliced;
    [means] marks the axes averaged over, [gone] all those that the result does not have.
    Of a selection without an element there is no mean (last hypothesis). *)
Theorem C31_call_means_partial : forall N env junk MAX (x : var axis num) D kw kw' W,
  env_ok env -> 1 <= MAX -> holds env x D -> Forall (full_arrays N) (var_axes x) -> follows_slices N ->
  (forall kv ax, In kv kw -> asks N (var_axes x) "m" kv ax \/ asks N (var_axes x) "s" kv ax -> axis_name N (var_axes x) ax) ->
  Forall2 (strips N (var_axes x)) kw kw' -> NoDup (map fst kw') ->
  (forall k v, In (k, v) kw' -> exists a, In a (var_axes x) /\ about N a k) ->
  good_keywords N (var_axes x) kw' ->
  averaged_once N (var_axes x) kw -> (forall j, asked N (var_axes x) "m" kw j -> asked N (var_axes x) "s" kw j -> False) ->
  weights_of N (var_axes x) kw W ->
  (forall inds j l, all_selected N (var_axes x) kw' inds -> asked N (var_axes x) "m" kw j -> nth_error inds j = Some l -> l <> []) ->
  exists y inds zs E means gone, call_all N env junk MAX x kw = Some y /\
    all_selected N (var_axes x) kw' inds /\
    Forall2 (fun '(a, b) l => sliced a l b) (combine (var_axes x) zs) inds /\ List.length zs = List.length (var_axes x) /\
    List.length means = List.length (var_axes x) /\ List.length gone = List.length (var_axes x) /\
    (forall j l, nth_error inds j = Some l -> (nth_error means j = Some true <-> asked N (var_axes x) "m" kw j) /\
       (nth_error gone j = Some true <-> asked N (var_axes x) "m" kw j \/ (asked N (var_axes x) "s" kw j /\ zlen l = 1))) /\
    var_axes y = dropped gone zs /\ responds env y E /\
    forall p, position (map zlen inds) p ->
      ((forall j, ~ asked N (var_axes x) "m" kw j) -> E (dropped gone p) = D (gather inds p)) /\
      (forall j, asked N (var_axes x) "m" kw j -> mean_of W D (map (gather inds) (fibre means (map zlen inds) (dropped means p))) (E (dropped gone p))).
Proof. exact (fun N env junk MAX x D kw kw' W He HM => call_all_spec N env He junk MAX HM x D kw kw' W). Qed.
Print Assumptions C31_call_means_partial.

(** *** an example: lon has the weights 1, 2, 3 *)
Definition wnames : naming :=
  Naming (fun a k => match a with Coord c => match c_class c with [1] => String.eqb k "lat" | [2] => String.eqb k "lon" | _ => false end | _ => false end)
         (fun a k => if String.eqb k "weights" then match a with Coord c => option_map snd (find (fun kv => Z.eqb (fst kv) 9) (c_aux c)) | _ => None end else None)
         (fun a k => true).
Lemma wnames_follow : follows_slices wnames.
Proof.
  intros a l b H. destruct a as [c| |], b as [d| |]; cbn in H; try contradiction; [|split; reflexivity|split; reflexivity].
  destruct H as (_ & Hc & _ & _ & _ & Ha & _). split; [intros k; cbn; now rewrite Hc|]. cbn. rewrite Ha. clear Ha.
  induction (c_aux c) as [|[k v] aux IH]; [reflexivity|]. cbn. destruct (Z.eqb k 9); [reflexivity|exact IH].
Qed.
Lemma wnames_full : Forall (full_arrays wnames) [lat2; lon3].
Proof.
  repeat constructor; intros ax vals; cbn; destruct (String.eqb ax "weights"); try discriminate. intros H. injection H as <-. reflexivity.
Qed.
Definition reading (p : list Z) : num := num_of_Z (table p).
Definition room : var axis num := source [lat2; lon3] reading.
Lemma room_holds : holds env0 room reading.
Proof.
  destruct (blocks_holds env0) as [[_ Hs] Hg]. split; [|exact Hg]. split; [|exact Hs]. cbn. intros inds _. eexists. split; [reflexivity|]. split; [reflexivity|]. reflexivity.
Qed.
Definition kw_room : list (string * request) := [("m_lon", Several [Int 2; Int 9]); ("si_lat", One (Int (-1)))].
Definition kw_room' : list (string * request) := [("lon", Several [Int 2; Int 9]); ("i_lat", One (Int (-1)))].
Definition w_room (q : list Z) : num := Fin (Q2Qc (nth (Z.to_nat (nth 1 q 0)) [1; 2; 3]%Q 0%Q)).
Lemma room_named k p ax : call_named wnames (var_axes room) k p ax ->
  (if has_axis wnames [lat2; lon3] k then (EmptyString, k) else match split_key k with Some pr => pr | None => (EmptyString, k) end) = (p, ax).
Proof. intros. now apply call_parse. Qed.
Lemma room_lon : first_axis wnames (var_axes room) "lon" 1.
Proof. apply which_axis_spec. vm_compute. reflexivity. Qed.
Lemma room_lat : first_axis wnames (var_axes room) "lat" 0.
Proof. apply which_axis_spec. vm_compute. reflexivity. Qed.
Lemma room_asks c kv ax : In kv kw_room -> asks wnames (var_axes room) c kv ax -> (kv = ("m_lon", Several [Int 2; Int 9]) /\ c = "m"%char /\ ax = "lon") \/
  (kv = ("si_lat", One (Int (-1))) /\ ax = "lat" /\ (c = "s" \/ c = "i")%char).
Proof.
  intros [<-|[<-|[]]] (p & Hp & t & u & Hl); apply room_named in Hp; vm_compute in Hp; injection Hp as <- <-.
  - left. split; [reflexivity|]. split; [|reflexivity]. destruct t as [|c1 [|c2 t]]; cbn in Hl; [congruence|discriminate Hl|discriminate Hl].
  - right. split; [reflexivity|]. split; [reflexivity|]. destruct t as [|c1 [|c2 [|c3 t]]]; cbn in Hl; [left; congruence|right; congruence|discriminate Hl|discriminate Hl].
Qed.
Lemma room_asked_m j : asked wnames (var_axes room) "m" kw_room j <-> j = 1%nat.
Proof.
  split.
  - intros (kv & ax & Hin & Ha & Hf). destruct (room_asks _ _ _ Hin Ha) as [(_ & _ & ->)|(_ & _ & [E|E])]; [|discriminate E|discriminate E]. exact (first_axis_unique _ _ _ _ _ Hf room_lon).
  - intros ->. exists ("m_lon", Several [Int 2; Int 9]), "lon". split; [now left|]. split; [|exact room_lon]. exists "m". split; [apply call_parse; vm_compute; reflexivity|apply has_letter_spec; reflexivity].
Qed.
Lemma room_asked_s j : asked wnames (var_axes room) "s" kw_room j -> j = 0%nat.
Proof.
  intros (kv & ax & Hin & Ha & Hf). destruct (room_asks _ _ _ Hin Ha) as [(_ & E & _)|(_ & -> & _)]; [discriminate E|]. exact (first_axis_unique _ _ _ _ _ Hf room_lat).
Qed.
Example C31_call_means_example :
  env_ok env0 /\ holds env0 room reading /\ Forall (full_arrays wnames) (var_axes room) /\ follows_slices wnames /\
  (forall kv ax, In kv kw_room -> asks wnames (var_axes room) "m" kv ax \/ asks wnames (var_axes room) "s" kv ax -> axis_name wnames (var_axes room) ax) /\
  Forall2 (strips wnames (var_axes room)) kw_room kw_room' /\ NoDup (map fst kw_room') /\
  (forall k v, In (k, v) kw_room' -> exists a, In a (var_axes room) /\ about wnames a k) /\
  good_keywords wnames (var_axes room) kw_room' /\
  averaged_once wnames (var_axes room) kw_room /\ (forall j, asked wnames (var_axes room) "m" kw_room j -> asked wnames (var_axes room) "s" kw_room j -> False) /\
  weights_of wnames (var_axes room) kw_room (Some w_room) /\
  (forall inds j l, all_selected wnames (var_axes room) kw_room' inds -> asked wnames (var_axes room) "m" kw_room j -> nth_error inds j = Some l -> l <> []) /\
  show_all (call_all wnames env0 zs 100 room kw_room) = Some (Some (58 # 5)%Q) /\
  show_all (call_all names env0 zs 100 room kw_room) = Some (Some (23 # 2)%Q).
Proof.
  split; [apply env0_ok|]. split; [apply room_holds|]. split; [apply wnames_full|]. split; [apply wnames_follow|].
  split; [|split; [|split; [|split; [|split; [|split; [|split; [|split; [|split; [|split]]]]]]]]].
  - intros kv ax Hin [Ha|Ha]; destruct (room_asks _ _ _ Hin Ha) as [(_ & _ & ->)|(_ & -> & _)];
      first [exists lon3; split; [right; now left|reflexivity]|exists lat2; split; [now left|reflexivity]].
  - constructor; [|constructor; [|constructor]]; (split; [reflexivity|]); [exists "m", "lon"|exists "si", "lat"]; (split; [apply call_parse; vm_compute; reflexivity|reflexivity]).
  - cbn. repeat constructor; cbn; intuition discriminate.
  - intros k v [E|[E|[]]]; injection E as <- <-.
    + exists lon3. split; [right; now left|]. exists "", "lon". split; [apply parse_named; vm_compute; reflexivity|]. right. split; [apply no_letter; vm_compute; reflexivity|]. exists (axis_vals lon3). left. split; reflexivity.
    + exists lat2. split; [now left|]. exists "i", "lat". split; [apply parse_named; vm_compute; reflexivity|]. left. split; [apply has_letter_spec; vm_compute; reflexivity|reflexivity].
  - intros [|[|j]] a k v p ax Ha [Hin _] Hk Hc; cbn in Ha; try (destruct j; discriminate); injection Ha as <-; destruct Hin as [E|[E|[]]]; injection E as <- <-;
      apply parse_named in Hk; vm_compute in Hk; injection Hk as <- <-; split; intros Hi; try (exfalso; apply has_letter_spec in Hi; vm_compute in Hi; discriminate); try (exfalso; apply Hi; apply has_letter_spec; vm_compute; reflexivity); cbn.
    + right. split; [apply no_letter; reflexivity|]. split; [reflexivity|]. intros [K|[K|[]]]; discriminate K.
    + lia.
    + right. split; [apply no_letter; reflexivity|]. split; [reflexivity|]. intros [K|[K|[]]]; discriminate K.
    + lia.
  - intros [|kv1 [|kv2 pre]] kv post kv' ax ax' j E Hin Ha Ha' Hf Hf'; unfold kw_room in E; cbn in E.
    + injection E as <- <-. destruct Hin as [<-|[]]. destruct (room_asks "m" ("si_lat", One (Int (-1))) ax' (or_intror (or_introl eq_refl)) Ha') as [(E & _)|(_ & _ & [E|E])]; discriminate E.
    + injection E as _ <- <-. destruct Hin.
    + injection E as _ _ E. destruct pre; discriminate E.
  - intros j Hm Hs. apply room_asked_m in Hm. apply room_asked_s in Hs. congruence.
  - right. exists 1%nat, lon3, [1; 2; 3]%Q. split; [now apply room_asked_m|]. split; [reflexivity|]. split; [reflexivity|]. split; [reflexivity|]. intros j b Hj _ Hne. apply room_asked_m in Hj. contradiction.
  - intros inds j l [_ Hs] Hj Hl. apply room_asked_m in Hj as ->. destruct (Hs 1%nat lon3 l eq_refl Hl) as (_ & _ & H). intros ->. apply (proj2 (H 1 ltac:(cbn; lia))).
    intros k v p ax [Hin _] Hk Hc. destruct Hin as [E|[E|[]]]; injection E as <- <-; apply parse_named in Hk; vm_compute in Hk; injection Hk as <- <-.
    + right. split; [apply no_letter; reflexivity|]. right. split; [apply no_letter; reflexivity|]. exists (axis_vals lon3). split; [left; split; reflexivity|].
      apply (value_range _ _ _ _ _ 2%Q 9%Q 1 5%Q); [apply no_letter; reflexivity|reflexivity|reflexivity|split; [lia|reflexivity]|]. left. split; unfold Qle; cbn; lia.
    + exfalso. destruct Hc as [[_ K]|[K _]]; [discriminate K|]. apply K. apply has_letter_spec. reflexivity.
  - vm_compute. reflexivity.
  - vm_compute. reflexivity.
Qed.

(** no keyword is ignored here either: if there is a result, each keyword concerns some axis, and the means and squeezes are asked for
    axes of the variable *)
Theorem C31_means_matched : forall N env junk MAX (x : var axis num) kw kw' y,
  Forall (full_arrays N) (var_axes x) -> call_all N env junk MAX x kw = Some y -> Forall2 (strips N (var_axes x)) kw kw' -> NoDup (map fst kw') ->
  (forall k v, In (k, v) kw' -> exists a, In a (var_axes x) /\ about N a k) /\
  (forall kv ax, In kv kw -> asks N (var_axes x) "m" kv ax \/ asks N (var_axes x) "s" kv ax -> axis_name N (var_axes x) ax).
Proof.
  intros N env junk MAX x kw kw' y Hf H Hst Hnd.
  assert (exists r, call N env junk x kw = Some r) as [r Hr]; [|exact (call_some N env junk x kw kw' r Hf Hr Hst Hnd)].
  unfold call_all in H. unfold call. destruct (prefixes N (var_axes x) kw [] [] []) as [[[ms ss] new]|] eqn:E; [|discriminate].
  pose proof (prefixes_some _ _ _ _ _ _ _ E) as Hax.
  destruct (prefixes_spec N (var_axes x) kw [] [] [] kw' Hax Hst Hnd) as (ms' & ss' & E' & Hm & Hs). rewrite E in E'. injection E' as -> -> ->. cbn [app] in *.
  destruct (get_slices N (var_axes x) kw') as [[sls rest]|] eqn:Eg; [|discriminate]. destruct rest; [|discriminate].
  destruct (slice_var env junk x (map Sl sls)) as [z|]; [|discriminate]. cbn [bind] in *.
  destruct (names_located N (var_axes x) ms') as (jm & -> & _). { intros ax Hin. apply Hm in Hin as (kv & Hkv & Ha). apply (Hax kv ax Hkv). now left. }
  destruct (names_located N (var_axes x) ss') as (js & -> & _). { intros ax Hin. apply Hs in Hin as (pre & kv & post & -> & Ha & _). apply (Hax kv ax); [apply in_app_iff; right; now left|now right]. }
  cbn [bind]. eauto.
Qed.
Print Assumptions C31_means_matched.
Example C31_means_matched_example : call_all wnames env0 zs 100 room [("m_lev", Several [Int 2; Int 9])] = None /\ call_all wnames env0 zs 100 room [("lev", One (Int 4))] = None /\
  show_all (call_all wnames env0 zs 100 room kw_room) <> None.
Proof. split; [vm_compute; reflexivity|]. split; [vm_compute; reflexivity|]. vm_compute. discriminate. Qed.
