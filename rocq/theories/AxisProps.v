(** map_to between axes (C12 at the level of axis objects) *)
From Coq Require Import ZArith List Bool QArith_base.
From Verif Require Import CalModel CalSpec SortSpec TimeSearchModel TimeSearchSpec IndexModel IndexSpec AxisModel AxisSpec AxisProofs EnvExample.
Import ListNotations.
Open Scope Z_scope.

(** every field of the first set is in the second *)
Definition fields_within (j k : mask) : Prop :=
  (my j = true -> my k = true) /\ (mm j = true -> mm k = true) /\ (md j = true -> md k = true) /\
  (mh j = true -> mh k = true) /\ (mmi j = true -> mmi k = true) /\ (ms j = true -> ms k = true).

(** C12: s.map_to(t), when every date field of [s] is a field of [t] too, compares the fields of [s]
    (so a climatological axis maps to dates of any year): the indices name equal records, one per
    element of [t] that has a partner, in the order of [t]. *)
Theorem C12_axis_map_to : forall env s t, env_ok env -> good_axis (Time s) ->
  t_class s = t_class t -> fields_within (t_mask s) (t_mask t) ->
  exists ind, axis_map_to env (Time s) (Time t) = Some ind /\
    mapped (map (project (t_mask s)) (t_dates s)) (map (project (t_mask s)) (t_dates t)) ind.
Proof.
  exact (fun env s t He G Hc Hm => time_axis_map_to env He s t G Hc (fields_mask_sub _ _ Hm)).
Qed.
Print Assumptions C12_axis_map_to.

(** otherwise the axes do not match at all *)
Theorem C12_axis_other_fields : forall env s t, t_class s = t_class t -> ~ fields_within (t_mask s) (t_mask t) ->
  axis_map_to env (Time s) (Time t) = None.
Proof. exact (fun env s t _ Hm => time_axis_no_map env s t (fun H => Hm (mask_sub_fields _ _ H))). Qed.
Print Assumptions C12_axis_other_fields.

(** months of a climatology, asked for the (unsorted) dates of two years *)
Definition months : taxis :=
  MkTime [1] Std (mkpdate None (Some 1) (Some 1) None None None) Days (mkmask false true false false false false)
    [mkdate 0 1 1 0 0 0; mkdate 0 2 1 0 0 0; mkdate 0 3 1 0 0 0] [0 # 86400; 2678400 # 86400; 5184000 # 86400]%Q.
Definition dates : taxis :=
  MkTime [1] Std (mkpdate (Some 2000) (Some 1) (Some 1) None None None) Days (mkmask true true true false false false)
    [mkdate 2001 3 7 0 0 0; mkdate 2000 1 9 0 0 0; mkdate 2000 7 1 0 0 0; mkdate 2001 1 2 0 0 0] [0; 0; 0; 0]%Q.
Example C12_axis_example :
  fields_within (t_mask months) (t_mask dates) /\
  map (axis_value Std (t_start months) Days (t_mask months)) (t_dates months) = map Some (t_vals months) /\
  axis_map_to env0 (Time months) (Time dates) = Some [2; 0; 0] /\
  axis_map_to env0 (Time dates) (Time months) = None.
Proof. split; [repeat split; discriminate|]. vm_compute. repeat split; reflexivity. Qed.
