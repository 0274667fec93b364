(** Vocabulary for axes. *)
From Coq Require Import ZArith List Bool QArith_base Qabs.
From Verif Require Import CalModel CalSpec SortSpec TimeSearchModel TimeSearchSpec IndexModel IndexSpec ArrModel ViewModel AxisModel.
Import ListNotations.
Open Scope Z_scope.

Notation zlen := IndexSpec.zlen.
Notation znth := ArrModel.znth.

(** np.argsort returns a permutation that puts the values in order, and computed tolerances are not negative *)
Definition env_ok (env : axenv) : Prop :=
  (forall l, index_permutation (length l) (argsort env l) /\
     forall i j p q x y, elem (argsort env l) i p -> elem (argsort env l) j q -> i < j ->
       elem l p x -> elem l q y -> (x <= y)%Q) /\
  (forall l, 0 <= new_rtol env l)%Q.

(** numpy's notion of "all close" (rtol 1e-5, atol 1e-8), for two numbers *)
Definition np_close (x y : Q) : Prop := (Qabs (x - y) <= (1 # 100000000) + (1 # 100000) * Qabs y)%Q.

(** no two coordinates are so close that comparing axes confuses them *)
Definition separated (l : list Q) : Prop :=
  forall i j x y, elem l i x -> elem l j y -> i <> j -> ~ np_close x y.

(** a usable axis: elements distinguishable, auxiliary arrays of the right length, dates that exist *)
Definition good_axis (a : axis) : Prop :=
  match a with
  | Coord c => separated (c_vals c) /\ Forall (fun kv => length (snd kv) = length (c_vals c)) (c_aux c) /\ (0 <= c_rtol c)%Q
  | NonCoord n => NoDup (n_rows n) /\ n_keys n <> [] /\ Forall (fun r => length r = length (n_keys n)) (n_rows n)
  | Time t =>
      good_start (t_cal t) (get_dates (t_start t)) /\ Forall (valid_date (t_cal t)) (t_dates t) /\ some_field (t_mask t) /\
      map (axis_value (t_cal t) (t_start t) (t_units t) (t_mask t)) (t_dates t) = map Some (t_vals t) /\
      NoDup (records (t_mask t) t) /\
      Forall (Forall (fun x => -99998 <= x <= 99998)) (records (t_mask t) t)
  end.

(** [b] is the axis [a] restricted to the elements with indices [l], in that order *)
Definition sliced (a : axis) (l : list Z) (b : axis) : Prop :=
  match a, b with
  | Coord c, Coord d =>
      c_kind d = c_kind c /\ c_class d = c_class c /\ c_name d = c_name c /\ c_atts d = c_atts c /\
      c_vals d = pick 0%Q (c_vals c) l /\ c_aux d = map (fun '(k, v) => (k, pick 0%Q v l)) (c_aux c) /\ (0 <= c_rtol d)%Q
  | NonCoord m, NonCoord n =>
      n_class n = n_class m /\ n_keys n = n_keys m /\ n_rows n = pick [] (n_rows m) l
  | Time s, Time t =>
      t_class t = t_class s /\ t_cal t = t_cal s /\ t_start t = t_start s /\ t_units t = t_units s /\ t_mask t = t_mask s /\
      t_dates t = pick date0 (t_dates s) l /\ t_vals t = pick 0%Q (t_vals s) l
  | _, _ => False
  end.

(** axes [a] and [b] belong to different dimensions: a.map_to(b) is None whatever the values are.
    Two axes of comparable class do not (not even two plain Axis objects with different names). *)
Definition unrelated (a b : axis) : Prop :=
  match a, b with
  | Coord c, Coord d =>
      match c_kind c, c_kind d with
      | Plain, _ => comparable (c_class c) (c_class d) = false
      | _, Plain => True
      | _, _ => c_name c <> c_name d
      end
  | Coord c, _ => match c_kind c with Plain => comparable (c_class c) (axis_class b) = false | _ => True end
  | NonCoord m, NonCoord n => prefix (n_class m) (n_class n) = false
  | Time s, Time t => class_eqb (t_class s) (t_class t) = false \/ mask_sub (t_mask s) (t_mask t) = false
  | _, _ => True
  end.

(** the axes of a variable belong to different dimensions *)
Definition separate (axes : list axis) : Prop :=
  forall i j a b, nth_error axes i = Some a -> nth_error axes j = Some b -> i <> j -> unrelated a b.
