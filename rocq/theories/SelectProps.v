(** C31: selection by keywords *)
From Coq Require Import ZArith List Bool Lia QArith_base Qabs String Ascii.
From Verif Require Import SortSpec IndexModel IndexSpec IndexProofs ArrModel ViewModel ViewSpec AxisModel AxisSpec VarOpsModel VarOpsSpec VarOpsProofs EnvExample ViewProps VarOpsProps StencilModel SelectModel SelectSpec SelectProofs.
Import ListNotations.
Open Scope Z_scope.
Open Scope string_scope.
Open Scope list_scope.

(** C31 (one axis): axis.get_slice(kwargs) returns the slice of exactly those elements that every keyword concerning the
    axis describes ([chosen]: nearest value, closed range, listed values, indices, or all the others), in the order of the
    axis, and leaves over exactly the keywords that do not concern the axis. *)
Theorem C31_slice : forall N a kw sl rest, full_arrays N a -> get_slice N a kw = Some (sl, rest) ->
  exists l, index_of_slice sl (axis_len a) l /\ selected N a (fun k v => In (k, v) kw) l /\
    forall k v, In (k, v) rest <-> In (k, v) kw /\ ~ about N a k.
Proof.
  intros N a kw sl rest Hf H. destruct (get_slice_spec N a Hf kw sl rest H) as (l & -> & Hl & Hr). exists l. split; [|auto].
  pose proof (slices_chosen [a] [l] eq_refl) as K. cbn in K. assert (in_range (axis_len a) l) as Hi by apply Hl.
  assert (Forall2 (fun '(n, s) l => index_of_slice s n l) [(axis_len a, simplify l)] [l]) as K2; [|inversion K2; assumption].
  apply K. intros [|j] b m Hb Hm; cbn in Hb, Hm; [injection Hb as <-; injection Hm as <-; exact Hi|destruct j; discriminate].
Qed.
Print Assumptions C31_slice.

(** and there is no exception if each keyword concerning the axis makes sense: indices in range, bounds of index ranges
    integers or None with a nonzero stride, values that are numbers, two of them for a range, and, for the nearest value, an
    axis that is not empty *)
Theorem C31_slice_defined : forall N a kw, full_arrays N a ->
  (forall k v p ax, In (k, v) kw -> named N a k p ax -> concerns N a p ax -> good_request N a p ax v) ->
  exists r, get_slice N a kw = Some r.
Proof. intros N a kw Hf. exact (get_slice_total N a Hf kw). Qed.
Print Assumptions C31_slice_defined.

(** each keyword that concerns the axis has one meaning: there is exactly one way to read it, as the name of the axis, or as
    prefix_name *)
Theorem C31_unambiguous : forall N a k, exists p ax, named N a k p ax /\ forall p' ax', named N a k p' ax' -> p' = p /\ ax' = ax.
Proof.
  intros N a k. destruct (named_total N a k) as (p & ax & H). exists p, ax. split; [exact H|]. intros p' ax' H'. destruct (named_unique N a k _ _ _ _ H H') as [-> ->]. auto.
Qed.
Print Assumptions C31_unambiguous.

(** C31 (a variable): var(name=value, ...), before the means and squeezes asked for are taken, is the variable sliced on each axis by
    the keywords that go to it, and the axes averaged and squeezed are those named in keywords with the letters m and s.
    [kw'] are the keywords without these two letters; they have to be different from one another and each has to concern an
    axis. *)
Theorem C31_call_partial : forall {V} N env (junk : list Z -> V) (x : var axis V) D kw kw',
  env_ok env -> holds env x D -> Forall (full_arrays N) (var_axes x) ->
  (forall kv ax, In kv kw -> asks N (var_axes x) "m" kv ax \/ asks N (var_axes x) "s" kv ax -> axis_name N (var_axes x) ax) ->
  Forall2 (strips N (var_axes x)) kw kw' -> NoDup (map fst kw') ->
  (forall k v, In (k, v) kw' -> exists a, In a (var_axes x) /\ about N a k) ->
  good_keywords N (var_axes x) kw' ->
  exists y D' ms ss inds, call N env junk x kw = Some (y, ms, ss) /\
    all_selected N (var_axes x) kw' inds /\
    Forall2 (fun '(a, b) l => sliced a l b) (combine (var_axes x) (var_axes y)) inds /\
    var_shape y = map zlen inds /\ holds env y D' /\ (forall p q, picks inds p q -> D' p = D q) /\
    (forall j, In j ms <-> exists kv ax, In kv kw /\ asks N (var_axes x) "m" kv ax /\ first_axis N (var_axes x) ax j) /\
    (forall j, In j ss <-> exists ax, first_axis N (var_axes x) ax j /\ exists pre kv post, kw = pre ++ kv :: post /\
       asks N (var_axes x) "s" kv ax /\ forall kv', In kv' (pre ++ [kv]) -> ~ asks N (var_axes x) "m" kv' ax).
Proof. exact (@call_statement). Qed.
Print Assumptions C31_call_partial.

(** lat and lon with names *)
Definition names : naming :=
  Naming (fun a k => match a with Coord c => match c_class c with [1] => String.eqb k "lat" | [2] => String.eqb k "lon" | _ => false end | _ => false end)
         (fun a k => if String.eqb k "m" then match a with Coord c => match c_class c with [2] => Some [1; 2; 3]%Q | _ => None end | _ => None end else None)
         (fun a k => negb (String.eqb k "m")).

(** no keyword is ignored: if there is a result, each keyword concerns some axis, and what is asked for by m and s is asked
    for an axis of the variable *)
Theorem C31_matched : forall {V} N env (junk : list Z -> V) (x : var axis V) kw kw' r,
  Forall (full_arrays N) (var_axes x) -> call N env junk x kw = Some r -> Forall2 (strips N (var_axes x)) kw kw' -> NoDup (map fst kw') ->
  (forall k v, In (k, v) kw' -> exists a, In a (var_axes x) /\ about N a k) /\
  (forall kv ax, In kv kw -> asks N (var_axes x) "m" kv ax \/ asks N (var_axes x) "s" kv ax -> axis_name N (var_axes x) ax).
Proof. exact (@call_some). Qed.
Print Assumptions C31_matched.
Example C31_matched_example : call names env0 (fun _ => 0) blocks [("lev", One (Int 4))] = None.
Proof. vm_compute. reflexivity. Qed.

(** *** examples: lat = [10, 20] and lon = [0, 5, 7] with an auxiliary array m = [1, 2, 3] *)
Example C31_nearest : get_slice names lon3 [("lon", One (Int 4))] = Some (SSlice (Slice (Some 1) (Some 2) (Some 1)), []).
Proof. vm_compute. reflexivity. Qed.
Example C31_range : get_slice names lon3 [("lon", Several [Int 7; Int 2])] = Some (SSlice (Slice (Some 1) (Some 3) (Some 1)), []).
Proof. vm_compute. reflexivity. Qed.
Example C31_listed : get_slice names lon3 [("l_lon", Several [Int 8; Int (-3); Int 1])] = Some (SSlice (Slice (Some 0) (Some 4) (Some 2)), []).
Proof. vm_compute. reflexivity. Qed.
Example C31_index : get_slice names lon3 [("i_lon", One (Int (-1)))] = Some (SSlice (Slice (Some 2) (Some 3) (Some 1)), []).
Proof. vm_compute. reflexivity. Qed.
Example C31_others : get_slice names lon3 [("ni_lon", One (Int 0)); ("lat", One (Int 3)); ("m", Several [Int 0; Int 2])] =
  Some (SSlice (Slice (Some 1) (Some 2) (Some 1)), [("lat", One (Int 3))]).
Proof. vm_compute. reflexivity. Qed.

Lemma names_full : Forall (full_arrays names) [lat2; lon3].
Proof.
  repeat constructor; intros ax vals; cbn; destruct (String.eqb ax "m"); try discriminate. intros H. injection H as <-. reflexivity.
Qed.
Definition kw_example : list (string * request) := [("mn_lon", One (Int 4)); ("si_lat", One (Int (-1)))].
Definition kw_example' : list (string * request) := [("n_lon", One (Int 4)); ("i_lat", One (Int (-1)))].
Lemma alias_lat k : alias names lat2 k = String.eqb k "lat". Proof. reflexivity. Qed.
Lemma alias_lon k : alias names lon3 k = String.eqb k "lon". Proof. reflexivity. Qed.
Example C31_call_example :
  env_ok env0 /\ holds env0 blocks table /\ Forall (full_arrays names) (var_axes blocks) /\
  (forall kv ax, In kv kw_example -> asks names (var_axes blocks) "m" kv ax \/ asks names (var_axes blocks) "s" kv ax -> axis_name names (var_axes blocks) ax) /\
  Forall2 (strips names (var_axes blocks)) kw_example kw_example' /\ NoDup (map fst kw_example') /\
  (forall k v, In (k, v) kw_example' -> exists a, In a (var_axes blocks) /\ about names a k) /\
  good_keywords names (var_axes blocks) kw_example' /\
  option_map (fun '(y, ms, ss) => (look (Some y) [[0; 0]; [0; 1]], ms, ss)) (call names env0 (fun _ => 0) blocks kw_example) =
    Some (Some ([1; 2], [10; 12]), [1%nat], [0%nat]).
Proof.
  assert (forall k p ax, call_named names (var_axes blocks) k p ax -> (if has_axis names [lat2; lon3] k then (EmptyString, k) else match split_key k with Some pr => pr | None => (EmptyString, k) end) = (p, ax)) as Kc
    by (intros; now apply call_parse).
  split; [apply env0_ok|]. split; [apply blocks_holds|]. split; [apply names_full|]. split; [|split; [|split; [|split; [|split]]]].
  - intros kv ax [<-|[<-|[]]] [(p & Hp & _)|(p & Hp & _)]; apply Kc in Hp; vm_compute in Hp; injection Hp as <- <-;
      (exists lat2 + exists lon3); (split; [cbn; tauto|reflexivity]).
  - constructor; [|constructor; [|constructor]]; (split; [reflexivity|]); [exists "mn", "lon"|exists "si", "lat"]; (split; [apply call_parse; vm_compute; reflexivity|reflexivity]).
  - cbn. repeat constructor; cbn; intuition discriminate.
  - intros k v [E|[E|[]]]; injection E as <- <-.
    + exists lon3. split; [cbn; tauto|]. exists "n", "lon". split; [apply parse_named; vm_compute; reflexivity|]. right. split; [apply no_letter; vm_compute; reflexivity|]. exists (axis_vals lon3). left. split; reflexivity.
    + exists lat2. split; [cbn; tauto|]. exists "i", "lat". split; [apply parse_named; vm_compute; reflexivity|]. left. split; [apply has_letter_spec; vm_compute; reflexivity|reflexivity].
  - intros [|[|j]] a k v p ax Ha [Hin _] Hk Hc; cbn in Ha; try (destruct j; discriminate); injection Ha as <-; destruct Hin as [E|[E|[]]]; injection E as <- <-;
      apply parse_named in Hk; vm_compute in Hk; injection Hk as <- <-; split; intros Hi; try (exfalso; apply has_letter_spec in Hi; vm_compute in Hi; discriminate); try (exfalso; apply Hi; apply has_letter_spec; vm_compute; reflexivity).
    + cbn. intros _. split; [reflexivity|discriminate].
    + cbn. lia.
    + cbn. intros _. split; [reflexivity|discriminate].
    + cbn. lia.
  - vm_compute. reflexivity.
Qed.

(** Two keywords that differ only in the letters m and s overwrite each other: of var(lon=(2,9), m_lon=(0,6)) only the last
    one remains. *)
Theorem C31_overwritten_refuted :
  ~ forall N env (junk : list Z -> Z) (x : var axis Z) D kw y ms ss i a b, env_ok env -> holds env x D -> Forall (full_arrays N) (var_axes x) ->
      call N env junk x kw = Some (y, ms, ss) -> nth_error (var_axes x) i = Some a -> nth_error (var_axes y) i = Some b ->
      forall k v p ax l, In (k, v) kw -> named N a k p ax -> concerns N a p ax -> sliced a l b -> forall e, In e l -> chosen N a p ax v e.
Proof.
  intros H.
  set (kw := [("lon", Several [Int 2; Int 9]); ("m_lon", Several [Int 0; Int 6])]).
  assert (option_map (fun '(y, _, _) => nth_error (var_axes y) 1) (call names env0 (fun _ => 0) blocks kw) = Some (Some (axis_take env0 lon3 [0; 1]))) as Hb by (vm_compute; reflexivity).
  destruct (call names env0 (fun _ => 0) blocks kw) as [[[y ms] ss]|] eqn:E; [|discriminate]. cbn [option_map] in Hb. injection Hb as Hb.
  assert (sliced lon3 [0; 1] (axis_take env0 lon3 [0; 1])) as Hs.
  { destruct (blocks_holds env0) as [_ G]. cbn in G. inversion G as [|? ? _ G']. inversion G' as [|? ? G1 _]. apply (sliced_self env0 env0_ok lon3 [0; 1] G1). repeat constructor; cbn; lia. }
  assert (chosen names lon3 "" "lon" (Several [Int 2; Int 9]) 0) as K.
  { eapply (H names env0 (fun _ => 0) blocks table kw y ms ss 1%nat lon3 _ env0_ok (blocks_holds _) names_full E eq_refl Hb "lon" _ "" "lon" [0; 1]);
      [now left|apply parse_named; vm_compute; reflexivity| |exact Hs|now left].
    right. split; [apply no_letter; reflexivity|]. exists (axis_vals lon3). left. split; reflexivity. }
  destruct K as [[K _]|[_ [[K _]|[_ (vals & Hv & K)]]]]; [apply has_letter_spec in K; discriminate|apply has_letter_spec in K; discriminate|].
  destruct Hv as [[_ ->]|[Hv _]]; [|vm_compute in Hv; discriminate].
  inversion K as [| ? ? ? ? Hl |? ? qa qb ? w Hl Ha Hb' Hw Hr]; subst; [apply has_letter_spec in Hl; discriminate|].
  cbn in Ha, Hb'. injection Ha as <-. injection Hb' as <-. cbn in Hw. destruct Hw as [_ Hw]. cbn in Hw. injection Hw as <-. unfold Qle in Hr. cbn in Hr. lia.
Qed.
Print Assumptions C31_overwritten_refuted.
