(** Record-search properties C11-C15. *)
From Coq Require Import ZArith List Bool Permutation QArith_base Lia.
From Verif Require Import Loop CalModel CalSpec TimeSearchModel TimeSearchSpec TimeSearchProofs
  TimeMapProofs TimeDateProofs.
Import ListNotations.
Open Scope Z_scope.

(** C11: with at least one field, every lookup in a sorted table ends and returns the position of
    an equal record, or -1 exactly when the table holds no such record. *)
Theorem C11_get_indices : forall n values requests,
  (0 < n)%nat -> table n values -> table n requests -> sorted values ->
  exists ind, get_indices values requests = Some ind /\ length ind = length requests /\
    forall j key i, at_ requests j key -> at_ ind j i ->
      at_ values i key \/ (i = -1 /\ ~ In key values).
Proof. exact get_indices_spec. Qed.
Print Assumptions C11_get_indices.

(** With no field at all the loop of get_index never ends on a non-empty table
    (no number of iterations leaves it). *)
Theorem C11_no_fields_refuted : forall values, values <> [] -> Forall (fun r => r = []) values ->
  forall k, loop k (get_index_step values []) (0, zlen values - 1) = inl (0, zlen values - 1).
Proof. exact get_index_no_fields. Qed.
Print Assumptions C11_no_fields_refuted.

Example C11_example :
  let t := [[1999; 12]; [2000; 1]; [2000; 1]; [2000; 3]] in
  table 2 t /\ get_indices t [[2000; 3]; [1999; 11]; [2000; 1]] = Some [3; -1; 1].
Proof. split; [repeat constructor|reflexivity]. Qed.

(** C12: map_to on two axes of one calendar, with any set of date fields (at least one), in any
    order, whatever permutation argsort returns: the indices name equal records, one per
    request that has a partner, in the order of the requests. *)
Theorem C12_map_to : forall c s u k mine theirs vals isrt sv,
  good_start c (get_dates s) -> Forall (valid_date c) mine -> some_field k ->
  map (axis_value c s u k) mine = map Some vals ->
  index_permutation (length mine) isrt -> take vals isrt = Some sv ->
  (forall i j x y, at_ sv i x -> at_ sv j y -> i < j -> (x <= y)%Q) ->
  exists ind, time_map_to isrt (map (project k) mine) (map (project k) theirs) = Some ind /\
    mapped (map (project k) mine) (map (project k) theirs) ind.
Proof. exact dates_map_to. Qed.
Print Assumptions C12_map_to.

(** the values array exists for every such axis, so the hypothesis above can be met *)
Theorem C12_values_exist : forall c s u k dates,
  good_start c (get_dates s) -> Forall (valid_date c) dates ->
  exists vals, map (axis_value c s u k) dates = map Some vals.
Proof. exact axis_values_exist. Qed.
Print Assumptions C12_values_exist.

(** a climatological axis (month and day only, unsorted, with 29 Feb) *)
Example C12_example :
  let k := mkmask false true true false false false in
  let s := mkpdate None (Some 1) (Some 1) None None None in
  let mine := [mkdate 2001 3 1 0 0 0; mkdate 2000 2 29 0 0 0; mkdate 1999 1 5 0 0 0] in
  let theirs := [mkdate 1980 2 29 0 0 0; mkdate 1980 2 28 0 0 0; mkdate 1980 3 1 0 0 0] in
  map (axis_value Std s Days k) mine = map Some [5184000 # 86400; 5097600 # 86400; 345600 # 86400]%Q /\
  time_map_to [2; 1; 0] (map (project k) mine) (map (project k) theirs) = Some [1; 0].
Proof. vm_compute. split; reflexivity. Qed.

(** C13: common_map on sorted records. *)
Theorem C13_common_map : forall n a b, table n a -> table n b -> sorted a -> sorted b ->
  exists m, common_map a b = Some m /\
    (forall i j, In (i, j) m -> exists r, at_ a i r /\ at_ b j r) /\
    (forall i r, at_ a i r -> In r b -> exists j, In (i, j) m) /\
    (forall j r, at_ b j r -> In r a -> exists i, In (i, j) m) /\
    zlen m <= zlen a + zlen b /\
    (increasing a -> zlen m <= zlen b) /\ (increasing b -> zlen m <= zlen a).
Proof. exact common_map_spec. Qed.
Print Assumptions C13_common_map.

(** Time.common_map, whose buffers hold max(na,nb) pairs, when at least one of the axes has no
    repeated record: any lexsort permutations. *)
Theorem C13_time_common_map_partial : forall n a_ind b_ind a b sa sb, table n a -> table n b ->
  index_permutation (length a) a_ind -> index_permutation (length b) b_ind ->
  take a a_ind = Some sa -> take b b_ind = Some sb -> sorted sa -> sorted sb ->
  (NoDup a \/ NoDup b) ->
  exists m, time_common_map a_ind b_ind a b = Some m /\
    (forall i j, In (i, j) m -> exists r, at_ a i r /\ at_ b j r) /\
    (forall i r, at_ a i r -> In r b -> exists j, In (i, j) m) /\
    (forall j r, at_ b j r -> In r a -> exists i, In (i, j) m).
Proof. exact time_common_map_spec. Qed.
Print Assumptions C13_time_common_map_partial.

(** When both axes repeat a record the routine writes past its buffers (the C assert fires, or
    with NDEBUG memory is overwritten): two axes [1,1] give three pairs, room for two. *)
Theorem C13_buffer_overrun_refuted :
  exists a b, table 1 a /\ table 1 b /\ sorted a /\ sorted b /\
    exists m, common_map a b = Some m /\ zlen m > Z.max (zlen a) (zlen b) /\
    time_common_map [0; 1] [0; 1] a b = None.
Proof.
  exists [[1]; [1]], [[1]; [1]].
  split; [repeat constructor|]. split; [repeat constructor|].
  assert (S : sorted [[1]; [1]]).
  { intros i j ri rj Hi Hj Hl K.
    assert (ri = [1]) by (apply (fun H => proj2 (at_in _ _) (ex_intro _ i H)) in Hi; cbn in Hi; intuition congruence).
    assert (rj = [1]) by (apply (fun H => proj2 (at_in _ _) (ex_intro _ j H)) in Hj; cbn in Hj; intuition congruence).
    subst. exact (lex_irrefl _ K). }
  split; [exact S|]. split; [exact S|].
  exists [(0, 0); (1, 0); (1, 1)]. split; [reflexivity|]. split; [reflexivity|reflexivity].
Qed.
Print Assumptions C13_buffer_overrun_refuted.

Example C13_example :
  common_map [[1]; [2]; [4]] [[1]; [1]; [3]; [4]; [4]] = Some [(0, 0); (0, 1); (2, 3); (2, 4)] /\
  time_common_map [2; 0; 1] [1; 0; 3; 2; 4] [[2]; [4]; [1]] [[1]; [1]; [4]; [3]; [4]]
    = Some [(2, 1); (2, 0); (1, 2); (1, 4)].
Proof. split; reflexivity. Qed.

(** C14: the distinct records, each once, in strictly increasing order. *)
Theorem C14_uniquify : forall n ins, (0 < n)%nat -> table n ins -> sorted ins ->
  exists res, uniquify ins = Some res /\ increasing res /\ (forall x, In x res <-> In x ins).
Proof. exact uniquify_spec. Qed.
Print Assumptions C14_uniquify.

Theorem C14_axis_fields : forall n S fields s, (0 < n)%nat -> table n fields ->
  index_permutation (length fields) S -> take fields S = Some s -> sorted s ->
  exists res, py_uniquify S fields = Some res /\ increasing res /\ (forall x, In x res <-> In x fields).
Proof. exact py_uniquify_spec. Qed.
Print Assumptions C14_axis_fields.

Example C14_example : py_uniquify [1; 3; 0; 2] [[2; 1]; [1; 5]; [2; 1]; [1; 5]] = Some [[1; 5]; [2; 1]].
Proof. reflexivity. Qed.

(** C15: the greatest position whose record is not after the request, -1 if all are after it. *)
Theorem C15_nearest_lower : forall n t look, table n t -> length look = n -> sorted t ->
  exists i, nearest_lower t look = Some i /\
   ((exists r, at_ t i r /\ ~ lex_lt look r /\ forall j rj, at_ t j rj -> i < j -> lex_lt look rj)
    \/ (i = -1 /\ forall j rj, at_ t j rj -> lex_lt look rj)).
Proof. exact nearest_lower_spec. Qed.
Print Assumptions C15_nearest_lower.

Example C15_example :
  let t := [[1999; 12]; [2000; 1]; [2000; 1]; [2000; 3]] in
  nearest_lower t [2000; 2] = Some 2 /\ nearest_lower t [1999; 11] = Some (-1) /\
  nearest_lower t [2001; 1] = Some 3 /\ nearest_lower [] [1] = Some (-1).
Proof. repeat split; reflexivity. Qed.
