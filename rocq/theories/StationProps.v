(** C74: axes without coordinates (stations) and text survive CF encoding. *)
From Coq Require Import ZArith List Bool QArith_base Ascii String Lia Permutation.
From Verif Require Import CalModel TimeSearchModel IndexModel ArrModel ArrProofs AxisModel ClimModel ViewModel StencilModel CfModel StationModel StationProofs.
Import ListNotations.
Open Scope Z_scope.
Open Scope list_scope.

(** text is stored as rows of characters, all of the length of the longest string, and read back as it was, except that characters
    of code zero are lost *)
Theorem C74_text : forall name dims l, (exists s, In s l /\ s <> EmptyString) -> (forall s a, In s l -> In a (chars s) -> code a < 128) ->
  exists w rows, encode_string_var (SVar name dims (Text l) None None) = Some w /\
    v_data w = Chars rows /\ Forall (fun r => List.length r = longest l) rows /\
    is_coded w = true /\ decode_string_var w = Some (SVar name dims (Text (map no_zero l)) None None).
Proof.
  intros name dims l Hl Ha. destruct (encode_string_text (SVar name dims (Text l) None None) l eq_refl Hl Ha) as (w & H1 & H2 & H3 & rows & H4 & H5).
  exists w, rows. repeat (split; [assumption|]). exact H3.
Qed.
Print Assumptions C74_text.
Theorem C74_text_back : forall name dims l w, (exists s, In s l /\ s <> EmptyString) -> (forall s, In s l -> usable s) ->
  encode_string_var (SVar name dims (Text l) None None) = Some w -> decode_string_var w = Some (SVar name dims (Text l) None None).
Proof.
  intros name dims l w Hl Ha Hw. destruct (C74_text name dims l Hl (fun s a Hs Hin => proj1 (Ha s Hs a Hin))) as (w' & _ & H1 & _ & _ & _ & H2). rewrite Hw in H1. injection H1 as <-.
  rewrite H2. do 2 f_equal. f_equal. rewrite <- (map_id l) at 2. apply map_ext_in. intros s Hs. apply no_zero_usable. intros a Hin. exact (proj2 (Ha s Hs a Hin)).
Qed.
Print Assumptions C74_text_back.

Lemma filter_all {A} (f : A -> bool) l : (forall x, In x l -> f x = true) -> filter f l = l.
Proof. induction l as [|x l IH]; intros H; [reflexivity|]. cbn [filter]. rewrite (H x (or_introl eq_refl)). f_equal. apply IH. intros y Hy. apply H. now right. Qed.
Lemma NoDup_keys_filter {A} (f : string * A -> bool) l : NoDup (map fst l) -> NoDup (map fst (filter f l)).
Proof.
  induction l as [|kv l IH]; intros H; [constructor|]. cbn [map] in H. inversion H; subst. cbn [filter]. destruct (f kv); [|now apply IH]. cbn [map]. constructor; [|now apply IH].
  intros K. apply H2. apply in_map_iff in K as (x & E & K). apply filter_In in K as [K _]. rewrite <- E. now apply in_map.
Qed.
Lemma NoDup_both {A} (l m : list A) : NoDup l -> NoDup m -> (forall x, In x l -> ~ In x m) -> NoDup (l ++ m).
Proof.
  intros Hl Hm H. induction l as [|x l IH]; [exact Hm|]. inversion Hl; subst. cbn [app]. constructor; [|apply IH; [assumption|]; intros y Hy; apply H; now right].
  rewrite in_app_iff. intros [K|K]; [contradiction|]. exact (H x (or_introl eq_refl) K).
Qed.

(** what can be stored *)
Definition storable (d : adata) : Prop :=
  match d with
  | Num _ => True
  | Text l => (exists s, In s l /\ s <> EmptyString) /\ forall s, In s l -> usable s
  | Chars _ => False
  end.
Definition is_lat_lon (k : string) : Prop := k = "lat"%string \/ k = "lon"%string.

Lemma split_names aux : NoDup (map fst aux) -> (forall k, In k (map fst aux) -> is_lat_lon k \/ ~ piece k "lat lon") ->
  forall kv, In kv (others aux) <-> In kv aux /\ ~ is_lat_lon (fst kv).
Proof.
  intros Hn Hp [k d]. unfold others. rewrite filter_In. cbn [fst]. rewrite negb_true_iff.
  assert (forall k, In k (coord_names aux) -> is_lat_lon k) as Hc by (intros j Hj; unfold coord_names in Hj; apply filter_In in Hj as [[<-|[<-|[]]] _]; [now left|now right]).
  assert (piece k (join (coord_names aux)) -> piece k "lat lon") as Hsub.
  { unfold coord_names. cbn [filter]. destruct (lookup "lat" aux), (lookup "lon" aux); cbn [join String.concat]; intros (u & v & E).
    - exists u, v. exact E.
    - exists u, (v ++ " lon")%string. transitivity ("lat" ++ " lon")%string; [reflexivity|]. rewrite E. clear. induction u as [|a u IH]; cbn [String.append]; [|now rewrite IH]. induction k as [|a k IH]; cbn [String.append]; [reflexivity|now rewrite IH].
    - exists ("lat " ++ u)%string, v. transitivity ("lat " ++ "lon")%string; [reflexivity|]. rewrite E. reflexivity.
    - assert (k = EmptyString) as -> by (destruct u; [|discriminate]; destruct k; [reflexivity|discriminate]). exists EmptyString, "lat lon"%string. reflexivity. }
  split.
  - intros [Hin H]. split; [exact Hin|]. intros Hl.
    assert (lookup k aux <> None) as Hk by (rewrite (lookup_in k d aux Hn Hin); discriminate).
    assert (contains k (join (coord_names aux)) = true); [|congruence]. unfold coord_names. cbn [filter].
    destruct Hl as [->| ->]; [destruct (lookup "lat" aux); [|now destruct Hk]; destruct (lookup "lon" aux); reflexivity|]. destruct (lookup "lon" aux); [|now destruct Hk]. destruct (lookup "lat" aux); reflexivity.
  - intros [Hin H]. split; [exact Hin|]. apply not_true_iff_false. intros E. apply contains_piece in E. apply Hsub in E. destruct (Hp k) as [K|K]; [apply in_map_iff; now exists (k, d)| |]; tauto.
Qed.

(** the arrays of an axis without coordinates come back with their names and values, and the variables are the same *)
Theorem C74_round_trip : forall axis aux vars,
  NoDup (map fst aux) -> aux <> [] -> (forall k d, In (k, d) aux -> word k /\ storable d) ->
  (forall k, In k (map fst aux) -> is_lat_lon k \/ ~ piece k "lat lon") ->
  (forall k d, In (k, d) aux -> is_lat_lon k -> exists l, d = Num l) ->
  (forall v, In v vars -> v_coords v = None /\ v_anc v = None /\ ~ In (v_name v) (map fst aux) /\ forall l, v_data v <> Chars l) ->
  (exists v, In v vars /\ In axis (v_dims v)) ->
  exists w kind aux' vars', encode_station axis aux vars = Some w /\ decode_station axis w = Some (kind, aux', vars') /\
    kind = (if String.eqb (lower axis) "station" then SStation else SNonCoord) /\ Permutation aux' aux /\
    map (fun v => (v_name v, v_dims v, v_data v)) vars' = map (fun v => (v_name v, v_dims v, v_data v)) vars.
Proof.
  intros axis aux vars Hn Hne Hw Hp Hl Hv (v0 & Hv0 & Hd0). unfold encode_station.
  set (cs := coord_names aux). set (os := others aux). set (mark := fun v : svar => if has_dim axis v then _ else v).
  set (first := flat_map (fun k => match lookup k aux with Some d => [(k, d)] | None => [] end) cs).
  assert (flat_map (fun k => match lookup k aux with Some d => [aux_var axis (k, d)] | None => [] end) cs = map (aux_var axis) first) as ->.
  { unfold first. induction cs as [|k l IH]; [reflexivity|]. cbn [flat_map]. rewrite map_app, IH. destruct (lookup k aux); reflexivity. }
  assert (forall kv, In kv os <-> In kv aux /\ ~ is_lat_lon (fst kv)) as Hos by now apply split_names.
  assert (forall k d, In (k, d) first <-> In (k, d) aux /\ is_lat_lon k) as Hfirst.
  { intros k d. unfold first, cs, coord_names. rewrite in_flat_map. split.
    - intros (j & Hj & Hin). apply filter_In in Hj as [Hj _]. destruct (lookup j aux) eqn:E; [|destruct Hin]. destruct Hin as [[= <- <-]|[]]. split; [now apply lookup_some|]. destruct Hj as [<-|[<-|[]]]; [now left|now right].
    - intros [Hin Hk]. exists k. rewrite (lookup_in k d aux Hn Hin). split; [|now left]. apply filter_In. rewrite (lookup_in k d aux Hn Hin). split; [|reflexivity]. destruct Hk as [->| ->]; [now left|right; now left]. }
  assert (map fst first = cs) as Hfc.
  { unfold first, cs, coord_names. cbn [filter]. destruct (lookup "lat" aux) eqn:E1, (lookup "lon" aux) eqn:E2; cbn [flat_map]; rewrite ?E1, ?E2; reflexivity. }
  set (enc := fun kv : string * adata => match encode_string_var (aux_var axis kv) with Some w => w | None => aux_var axis kv end).
  assert (forall kv, In kv os -> encode_string_var (aux_var axis kv) = Some (enc kv) /\ (if is_coded (enc kv) then decode_string_var (enc kv) else Some (enc kv)) = Some (aux_var axis kv)) as Henc.
  { intros [k d] Hin. apply Hos in Hin as [Hin _]. destruct (Hw k d Hin) as [_ Hs]. unfold enc. destruct d as [l|l|l]; [| |destruct Hs].
    - cbn. split; [reflexivity|]. unfold is_coded. cbn. destruct (unsuffix "_name" k); reflexivity.
    - destruct Hs as [S1 S2]. destruct (encode_string_text (aux_var axis (k, Text l)) l eq_refl S1 (fun s a Hs Hin => proj1 (S2 s Hs a Hin))) as (w & E1 & E2 & E3 & _).
      rewrite E1. split; [reflexivity|]. rewrite E2. rewrite E3. unfold aux_var. cbn [v_name v_dims fst snd]. do 2 f_equal. f_equal. rewrite <- (map_id l) at 2. apply map_ext_in. intros s Hs. apply no_zero_usable. intros a Ha. exact (proj2 (S2 s Hs a Ha)). }
  assert (sequence (map (fun kv => encode_string_var (aux_var axis kv)) os) = Some (map enc os)) as ->.
  { clear -Henc. induction os as [|kv l IH]; [reflexivity|]. cbn [map sequence]. rewrite (proj1 (Henc kv (or_introl eq_refl))), IH; [reflexivity|]. intros x Hx. apply Henc. now right. }
  cbn [bind]. eexists. unfold decode_station.
  set (all := map mark vars ++ map (aux_var axis) first ++ map (aux_var axis) os).
  assert (sequence (map (fun v => if is_coded v then decode_string_var v else Some v) (map mark vars ++ map (aux_var axis) first ++ map enc os)) = Some all) as Hdec.
  { assert (forall (f : svar -> option svar) l l' m m', sequence (map f l) = Some l' -> sequence (map f m) = Some m' -> sequence (map f (l ++ m)) = Some (l' ++ m')) as Happ.
    { intros f l. induction l as [|x l IH]; intros l' m m' A B; cbn [map sequence app] in *; [injection A as <-; exact B|]. destruct (f x); [|discriminate]. cbn [bind] in *. destruct (sequence (map f l)) eqn:E; [|discriminate]. injection A as <-. now rewrite (IH _ _ _ eq_refl B). }
    apply Happ; [|apply Happ].
    - assert (forall v, In v (map mark vars) -> is_coded v = false) as K.
      { intros v Hin. apply in_map_iff in Hin as (u & <- & Hu). destruct (Hv u Hu) as (_ & _ & _ & Hc). unfold is_coded. assert (v_data (mark u) = v_data u) as -> by (unfold mark; destruct (has_dim axis u); reflexivity).
        destruct (unsuffix _ _); [|reflexivity]. destruct (v_data u) eqn:E; [reflexivity|reflexivity|]. now destruct (Hc l). }
      clear -K. induction (map mark vars) as [|x l IH]; [reflexivity|]. cbn [map sequence]. rewrite (K x (or_introl eq_refl)), IH; [reflexivity|]. intros v Hv. apply K. now right.
    - assert (forall v, In v (map (aux_var axis) first) -> is_coded v = false) as K.
      { intros v Hin. apply in_map_iff in Hin as ([k d] & <- & Hk). apply Hfirst in Hk as [Hk Hll]. destruct (Hl k d Hk Hll) as (l & ->). unfold is_coded. cbn. destruct (unsuffix "_name" k); reflexivity. }
      clear -K. induction (map (aux_var axis) first) as [|x l IH]; [reflexivity|]. cbn [map sequence]. rewrite (K x (or_introl eq_refl)), IH; [reflexivity|]. intros v Hv. apply K. now right.
    - clear -Henc. induction os as [|kv l IH]; [reflexivity|]. cbn [map sequence]. rewrite (proj2 (Henc kv (or_introl eq_refl))), IH; [reflexivity|]. intros x Hx. apply Henc. now right. }
  rewrite Hdec. cbn [bind].
  assert (forall k, In k cs \/ In k (map fst os) <-> In k (map fst aux)) as Hkeys.
  { intros k. rewrite <- Hfc, !in_map_iff. split.
    - intros [([j d] & <- & Hin)|([j d] & <- & Hin)]; exists (j, d); (split; [reflexivity|]); [now apply Hfirst in Hin as [Hin _]|now apply Hos in Hin as [Hin _]].
    - intros ([j d] & <- & Hin). destruct (string_dec j "lat") as [E|E]; [|destruct (string_dec j "lon") as [E'|E']].
      + left. exists (j, d). split; [reflexivity|]. apply Hfirst. split; [exact Hin|now left].
      + left. exists (j, d). split; [reflexivity|]. apply Hfirst. split; [exact Hin|now right].
      + right. exists (j, d). split; [reflexivity|]. apply Hos. split; [exact Hin|]. cbn [fst]. unfold is_lat_lon. tauto. }
  assert (Forall word cs /\ Forall word (map fst os)) as [Wc Wo].
  { split; apply Forall_forall; intros k Hk; (assert (In k (map fst aux)) as Hk' by (apply Hkeys; tauto)); apply in_map_iff in Hk' as ([j d] & <- & Hin); exact (proj1 (Hw j d Hin)). }
  set (names := flat_map _ all).
  assert (forall k, In k names <-> In k (map fst aux)) as Hnames.
  { intros k. unfold names, all. rewrite in_flat_map. rewrite <- Hkeys. split.
    - intros (v & Hin & Hk). apply in_app_iff in Hin as [Hin|Hin].
      + apply in_map_iff in Hin as (u & <- & Hu). destruct (Hv u Hu) as (C1 & C2 & _ & _). unfold mark in Hk. destruct (has_dim axis u) eqn:E; [|now rewrite E in Hk].
        change (has_dim axis (SVar _ (v_dims u) _ _ _)) with (has_dim axis u) in Hk. rewrite E in Hk. cbn [v_coords v_anc] in Hk. rewrite C1, C2, !listed_join in Hk by assumption. now apply in_app_iff in Hk.
      + exfalso. rewrite <- map_app in Hin. apply in_map_iff in Hin as (kv & <- & _). destruct (has_dim axis (aux_var axis kv)); exact Hk.
    - intros Hk. exists (mark v0). split; [apply in_app_iff; left; now apply in_map|]. assert (has_dim axis v0 = true) as E by (apply existsb_exists; exists axis; split; [exact Hd0|apply String.eqb_refl]).
      unfold mark. rewrite E. change (has_dim axis (SVar _ (v_dims v0) _ _ _)) with (has_dim axis v0). rewrite E. cbn [v_coords v_anc]. destruct (Hv v0 Hv0) as (C1 & C2 & _ & _). rewrite C1, C2, !listed_join by assumption. now apply in_app_iff. }
  assert (forall v, In v vars -> v_name (mark v) = v_name v /\ v_dims (mark v) = v_dims v /\ v_data (mark v) = v_data v) as Hmark by (intros v _; unfold mark; destruct (has_dim axis v); repeat split).
  set (deps := filter _ all).
  assert (deps = map (aux_var axis) (first ++ os)) as Hdeps.
  { unfold deps, all. rewrite <- map_app, filter_app. replace (filter _ (map mark vars)) with (@nil svar).
    - cbn [app]. apply filter_all. intros v Hin. apply in_map_iff in Hin as ([k d] & <- & Hk). cbn [aux_var v_name v_dims fst]. rewrite String.eqb_refl, andb_true_r. apply existsb_exists. exists k. split; [|apply String.eqb_refl].
      apply Hnames. apply in_app_iff in Hk as [Hk|Hk]; [apply Hfirst in Hk as [Hk _]|apply Hos in Hk as [Hk _]]; apply in_map_iff; now exists (k, d).
    - symmetry. assert (forall v, In v vars -> existsb (String.eqb (v_name (mark v))) names = false) as K.
      { intros v Hin. apply not_true_iff_false. intros E. apply existsb_exists in E as (k & Hk & E). apply String.eqb_eq in E. subst k. destruct (Hv v Hin) as (_ & _ & C & _). apply C. apply Hnames. now rewrite <- (proj1 (Hmark v Hin)). }
      clearbody names. clear -K. induction vars as [|v l IH]; [reflexivity|]. cbn [map filter]. rewrite (K v (or_introl eq_refl)). cbn [andb]. apply IH. intros x Hx. apply K. now right. }
  assert (NoDup (map fst (first ++ os))) as Hnd.
  { rewrite map_app, Hfc. apply NoDup_both.
    - unfold cs, coord_names. apply NoDup_filter. repeat constructor; cbn; intuition discriminate.
    - unfold os, others. now apply NoDup_keys_filter.
    - intros k H1 H2. apply in_map_iff in H2 as ([j d] & <- & H2). apply Hos in H2 as [_ H2]. apply H2. cbn [fst] in *. unfold cs, coord_names in H1. apply filter_In in H1 as [[<-|[<-|[]]] _]; [now left|now right]. }
  assert (fold_left (fun d v => put (v_name v) (v_data v) d) deps [] = first ++ os) as Haux.
  { rewrite Hdeps. transitivity (fold_left (fun (d : arrays) kv => put (fst kv) (snd kv) d) (first ++ os) []); [|exact (fold_put (first ++ os) [] Hnd)].
    generalize (first ++ os). generalize (@nil (string * adata)). clear. intros d l. revert d. induction l as [|kv l IH]; intros d; [reflexivity|]. cbn [map fold_left]. apply IH. }
  rewrite Haux. do 3 eexists. split; [reflexivity|]. split; [reflexivity|].
  assert (Permutation (first ++ os) aux) as Hperm.
  { apply NoDup_Permutation.
    - now apply NoDup_map_inv in Hnd.
    - now apply NoDup_map_inv in Hn.
    - intros [k d]. rewrite in_app_iff, Hfirst, Hos. cbn [fst]. split; [tauto|]. intros H. unfold is_lat_lon. destruct (string_dec k "lat"), (string_dec k "lon"); tauto. }
  split; [|split; [exact Hperm|]].
  - destruct (String.eqb (lower axis) "station"); [reflexivity|]. rewrite Hdeps. destruct (first ++ os) eqn:E; [|reflexivity]. apply Permutation_nil in Hperm. now destruct Hne.
  - unfold all. rewrite <- map_app, filter_app. replace (filter _ (map (aux_var axis) (first ++ os))) with (@nil svar).
    + rewrite app_nil_r. rewrite filter_all.
      * rewrite map_map. apply map_ext_in. intros v Hin. now destruct (Hmark v Hin) as (-> & -> & ->).
      * intros v Hin. apply in_map_iff in Hin as (u & <- & Hu). rewrite (proj1 (Hmark u Hu)). rewrite lookup_none; [reflexivity|]. intros K. destruct (Hv u Hu) as (_ & _ & C & _). apply C.
        apply (Permutation_in _ (Permutation_map fst Hperm)). exact K.
    + symmetry. assert (forall kv, In kv (first ++ os) -> lookup (fst kv) (first ++ os) <> None) as K by (intros [k d] Hin; cbn [fst]; rewrite (lookup_in k d _ Hnd Hin); discriminate).
      revert K. generalize (first ++ os) at 2 3. intros D K. revert K. generalize (first ++ os) as l. clear. intros l K. induction l as [|kv l IH]; [reflexivity|]. cbn [map filter aux_var v_name]. destruct (lookup (fst kv) D) eqn:E; [|now destruct (K kv (or_introl eq_refl))]. apply IH. intros x Hx. apply K. now right.
Qed.
Print Assumptions C74_round_trip.

(** an array whose name is a piece of 'lat lon' is lost when the data set is written: the test "auxname in coordinates" looks for a
    piece of the text, not for one of the names *)
Definition stn_lat : string * adata := ("lat"%string, Num [45#1; 50#1]%Q).
Definition stn_lon : string * adata := ("lon"%string, Num [100#1; 120#1]%Q).
Definition stn_names : string * adata := ("station"%string, Text ["Toronto"; "Ulm"]%string).
Definition stn_obs : svar := SVar "ozone" ["time"; "station"]%string (Num [1; 2; 3; 4]%Q) None None.
Theorem C74_piece_refuted : exists axis (aux : arrays) v w kind aux' vars', NoDup (map fst aux) /\ (forall k d, In (k, d) aux -> word k /\ storable d) /\
  encode_station axis aux [v] = Some w /\ decode_station axis w = Some (kind, aux', vars') /\ In ("at"%string, Num [1; 2]%Q) aux /\ ~ In "at"%string (map fst aux').
Proof.
  exists "station"%string, [stn_lat; ("at"%string, Num [1; 2]%Q)], stn_obs. do 4 eexists. split; [repeat constructor; cbn; intuition discriminate|].
  split; [|split; [vm_compute; reflexivity|split; [vm_compute; reflexivity|split; [right; now left|]]]].
  - intros k d [[= <- <-]|[[= <- <-]|[]]]; (split; [|exact Logic.I]); (split; [discriminate|]); intros a Ha; cbn in Ha; repeat (destruct Ha as [<-|Ha]; [reflexivity|]); destruct Ha.
  - cbn. intuition discriminate.
Qed.
Print Assumptions C74_piece_refuted.
(** the text of an array of which all strings are empty, or that is not ASCII, cannot be written at all *)
Theorem C74_text_refused : forall name dims l, (forall s, In s l -> s = EmptyString) \/ (exists s a, In s l /\ In a (chars s) /\ 128 <= code a) ->
  encode_string_var (SVar name dims (Text l) None None) = None.
Proof.
  intros name dims l [H|(s & a & Hs & Ha & Hc)]; unfold encode_string_var; cbn [v_data].
  - destruct (Nat.ltb_spec 0 (longest l)) as [K|_]; [|reflexivity]. exfalso. apply longest_pos in K as (s & Hs & Hn). auto.
  - replace (forallb _ l) with false; [now rewrite andb_false_r|]. symmetry. apply not_true_iff_false. intros E. rewrite forallb_forall in E. specialize (E s Hs). rewrite forallb_forall in E. specialize (E a Ha).
    unfold ascii_char in E. apply Z.ltb_lt in E. lia.
Qed.
Print Assumptions C74_text_refused.

Definition stn_aux : arrays := [stn_names; stn_lat; ("height"%string, Num [76#1; 480#1]%Q); stn_lon].
Example C74_example :
  NoDup (map fst stn_aux) /\ stn_aux <> [] /\ (forall k d, In (k, d) stn_aux -> word k /\ storable d) /\
  (forall k, In k (map fst stn_aux) -> is_lat_lon k \/ ~ piece k "lat lon") /\
  (forall k d, In (k, d) stn_aux -> is_lat_lon k -> exists l, d = Num l) /\
  (forall v, In v [stn_obs] -> v_coords v = None /\ v_anc v = None /\ ~ In (v_name v) (map fst stn_aux) /\ forall l, v_data v <> Chars l) /\
  (exists v, In v [stn_obs] /\ In "station"%string (v_dims v)) /\
  bind (encode_station "station" stn_aux [stn_obs]) (fun w => Some (map v_name w, map v_coords w, map v_anc w)) =
    Some (["ozone"; "lat"; "lon"; "station_name"; "height"]%string, [Some "lat lon"%string; None; None; None; None], [Some "station height"%string; None; None; None; None]) /\
  bind (bind (encode_station "station" stn_aux [stn_obs]) (decode_station "station")) (fun '(k, aux, _) => Some (k, aux)) =
    Some (SStation, [stn_lat; stn_lon; stn_names; ("height"%string, Num [76#1; 480#1]%Q)]).
Proof.
  assert (forall a k, In a (chars k) -> ~ In a (chars "lat lon") -> ~ piece k "lat lon") as Hout.
  { intros a k Hk Hs (u & v & E). apply Hs. rewrite E. clear -Hk. induction u as [|b u IH]; cbn [String.append]; [|right; exact IH].
    induction k as [|b k IH]; [destruct Hk|]. cbn [chars String.append] in *. destruct Hk as [->|Hk]; [now left|right; now apply IH]. }
  split; [repeat constructor; cbn; intuition discriminate|]. split; [discriminate|]. split; [|split; [|split; [|split; [|split; [|split; vm_compute; reflexivity]]]]].
  - assert (forall s, forallb (fun a => (code a <? 128) && negb (Ascii.eqb a zero)) (chars s) = true -> usable s) as Hu.
    { intros s H a Ha. rewrite forallb_forall in H. specialize (H a Ha). destruct (andb_prop _ _ H) as [H1 H2]. split; [now apply Z.ltb_lt|]. intros ->. discriminate. }
    intros k d [[= <- <-]|[[= <- <-]|[[= <- <-]|[[= <- <-]|[]]]]]; (split; [split; [discriminate|]; intros a Ha; cbn in Ha; repeat (destruct Ha as [<-|Ha]; [reflexivity|]); destruct Ha|]); try exact Logic.I.
    split; [exists "Ulm"%string; split; [right; now left|discriminate]|]. intros s [<-|[<-|[]]]; apply Hu; reflexivity.
  - intros k [<-|[<-|[<-|[<-|[]]]]]; [right|left; now left|right|left; now right].
    + apply (Hout "s"%char); [now left|]. cbn. intuition discriminate.
    + apply (Hout "h"%char); [now left|]. cbn. intuition discriminate.
  - intros k d [[= <- <-]|[[= <- <-]|[[= <- <-]|[[= <- <-]|[]]]]] [K|K]; try discriminate; eexists; reflexivity.
  - intros v [<-|[]]. split; [reflexivity|]. split; [reflexivity|]. split; [cbn; intuition discriminate|discriminate].
  - exists stn_obs. split; [now left|right; now left].
Qed.

(** two such axes in one dataset: encode_cf treats one axis after the other, and the second one replaces the lists of a variable that
    has both, so that the arrays of the first are not found again: it comes back without arrays, and they stay behind as a variable *)
Theorem C74_two_axes_refuted : exists axis1 aux1 axis2 aux2 v w1 w2 vars',
  axis1 <> axis2 /\ v_dims v = [axis1; axis2] /\ aux1 <> [] /\
  encode_station axis1 aux1 [v] = Some w1 /\ encode_station axis2 aux2 w1 = Some w2 /\ decode_station axis1 w2 = Some (SDummy, [], vars') /\
  exists u, In u vars' /\ v_dims u = [axis1] /\ In (v_name u, v_data u) aux1.
Proof.
  exists "mooring"%string, [("depth"%string, Num [10; 20]%Q)], "member"%string, [("seed"%string, Num [1; 2; 3]%Q)], (SVar "salt" ["mooring"; "member"]%string (Num [1; 2; 3; 4; 5; 6]%Q) None None).
  do 3 eexists. split; [discriminate|]. split; [reflexivity|]. split; [discriminate|]. split; [vm_compute; reflexivity|]. split; [vm_compute; reflexivity|]. split; [vm_compute; reflexivity|].
  eexists. split; [right; left; reflexivity|]. split; [reflexivity|]. left. reflexivity.
Qed.
Print Assumptions C74_two_axes_refuted.
