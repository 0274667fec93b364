(** Vocabulary for C31: what the keywords of a selection mean. *)
From Coq Require Import ZArith List QArith_base Qabs String Ascii.
From Verif Require Import SortSpec IndexModel IndexSpec ViewSpec AxisModel SelectModel.
Import ListNotations.
Open Scope Z_scope.

(** a letter occurs in a string *)
Definition letter (c : ascii) (s : string) : Prop := exists t u, s = append t (String c u).
(** a keyword is the name of the axis, or prefix_name *)
Definition named (N : naming) (a : axis) (k p ax : string) : Prop :=
  (p = EmptyString /\ ax = k /\ (alias N a k = true \/ ~ letter underscore k)) \/
  (alias N a k = false /\ k = append p (String underscore ax) /\ ~ letter underscore p).

(** an index, which counts from the end if it is negative *)
Definition counted (n z i : Z) : Prop := (0 <= z /\ i = z) \/ (z < 0 /\ i = z + n).
Definition listed (p : string) (l : list item) : Prop := letter "l" p \/ (List.length l <> 2%nat /\ List.length l <> 3%nat).
(** selection by index *)
Inductive by_index (n : Z) (p : string) : request -> Z -> Prop :=
| index_none i : by_index n p (One Nothing) i
| index_one z i : counted n z i -> by_index n p (One (Int z)) i
| index_list l x z i : listed p l -> In x l -> as_int x = Some z -> counted n z i -> by_index n p (Several l) i
| index_range a b a' b' l i : ~ letter "l" p -> bound a = Some a' -> bound b = Some b' ->
    selects (Slice a' b' None) n l -> In i l -> by_index n p (Several [a; b]) i
| index_stride a b c a' b' c' l i : ~ letter "l" p -> bound a = Some a' -> bound b = Some b' -> bound c = Some c' ->
    selects (Slice a' b' c') n l -> In i l -> by_index n p (Several [a; b; c]) i.

(** element [i] is the value closest to [q], the first one of several *)
Definition nearest (vals : list Q) (q : Q) (i : Z) : Prop :=
  exists w, elem vals i w /\ forall j u, elem vals j u -> (Qabs (q - w) <= Qabs (q - u))%Q /\ ((j < i)%Z -> Qabs (q - w) < Qabs (q - u))%Q.
(** floating point values are looked up by the closest one, others have to be equal *)
Definition fits_value (float : bool) (vals : list Q) (q : Q) (i : Z) : Prop :=
  if float then nearest vals q i else exists w, elem vals i w /\ (w == q)%Q.
(** selection by value *)
Inductive by_value (float : bool) (vals : list Q) (p : string) : request -> Z -> Prop :=
| value_one x q i : as_num x = Some q -> fits_value float vals q i -> by_value float vals p (One x) i
| value_list l x q i : letter "l" p -> In x l -> as_num x = Some q -> fits_value float vals q i -> by_value float vals p (Several l) i
| value_range a b qa qb i w : ~ letter "l" p -> as_num a = Some qa -> as_num b = Some qb -> elem vals i w ->
    ((qa <= w <= qb) \/ (qb <= w <= qa))%Q -> by_value float vals p (Several [a; b]) i.

(** the values that the name [ax] stands for *)
Definition values_named (N : naming) (a : axis) (ax : string) (vals : list Q) : Prop :=
  (alias N a ax = true /\ vals = axis_vals a) \/ (alias N a ax = false /\ auxarray N a ax = Some vals).
(** the keyword has to do with the axis *)
Definition concerns (N : naming) (a : axis) (p ax : string) : Prop :=
  (letter "i" p /\ alias N a ax = true) \/ (~ letter "i" p /\ exists vals, values_named N a ax vals).
(** element [i] is described, without regard to an n in the prefix *)
Definition described (N : naming) (a : axis) (p ax : string) (v : request) (i : Z) : Prop :=
  (letter "i" p /\ by_index (axis_len a) p v i) \/
  (~ letter "i" p /\ exists vals, values_named N a ax vals /\ by_value (floating N a ax) vals p v i).
(** with n in the prefix: all the others *)
Definition chosen (N : naming) (a : axis) (p ax : string) (v : request) (i : Z) : Prop :=
  (letter "n" p /\ ~ described N a p ax v i) \/ (~ letter "n" p /\ described N a p ax v i).
(** a keyword, as it is spelled, concerns the axis *)
Definition about (N : naming) (a : axis) (k : string) : Prop := exists p ax, named N a k p ax /\ concerns N a p ax.
(** the selection made on axis [a] by the keywords in [K]: the elements, in order, that satisfy all the keywords that concern the axis *)
Definition selected (N : naming) (a : axis) (K : string -> request -> Prop) (l : list Z) : Prop :=
  increasing l /\ in_range (axis_len a) l /\
  forall i, 0 <= i < axis_len a ->
    (In i l <-> forall k v p ax, K k v -> named N a k p ax -> concerns N a p ax -> chosen N a p ax v i).
(** the keywords of a list that go to axis number [j]: those that do not concern an earlier axis *)
Definition goes_to (N : naming) (axes : list axis) (kw : list (string * request)) (j : nat) (k : string) (v : request) : Prop :=
  In (k, v) kw /\ forall i b, (i < j)%nat -> nth_error axes i = Some b -> ~ about N b k.
(** arrays of an axis have its length *)
Definition full_arrays (N : naming) (a : axis) : Prop :=
  zlen (axis_vals a) = axis_len a /\ forall ax vals, auxarray N a ax = Some vals -> zlen vals = axis_len a.

(** the requests that make sense: *)
Definition good_index (n : Z) (p : string) (v : request) : Prop :=
  match v with
  | One (Int z) => - n <= z < n
  | One (Real _) => False
  | One Nothing => True
  | Several l =>
    (listed p l /\ forall x, In x l -> exists z, as_int x = Some z /\ - n <= z < n) \/
    (~ listed p l /\ (forall x, In x l -> exists b, bound x = Some b) /\ nth_error l 2 <> Some (Int 0))
  end.
Definition good_value (float : bool) (n : Z) (p : string) (v : request) : Prop :=
  match v with
  | One x => float = true -> 0 < n /\ x <> Nothing
  | Several l =>
    (letter "l" p /\ (float = true -> forall x, In x l -> 0 < n /\ x <> Nothing)) \/
    (~ letter "l" p /\ List.length l = 2%nat /\ ~ In Nothing l)
  end.
Definition good_request (N : naming) (a : axis) (p ax : string) (v : request) : Prop :=
  (letter "i" p -> good_index (axis_len a) p v) /\ (~ letter "i" p -> good_value (floating N a ax) (axis_len a) p v).

(** the keywords of a call of a variable: p_name without the letters m and s in p *)
Definition plain_letters (p : string) : string :=
  string_of_list_ascii (filter (fun c => negb (Ascii.eqb c "m" || Ascii.eqb c "s")) (list_ascii_of_string p)).
Definition axis_name (N : naming) (axes : list axis) (k : string) : Prop := exists a, In a axes /\ alias N a k = true.
Definition call_named (N : naming) (axes : list axis) (k p ax : string) : Prop :=
  (p = EmptyString /\ ax = k /\ (axis_name N axes k \/ ~ letter underscore k)) \/
  (~ axis_name N axes k /\ k = append p (String underscore ax) /\ ~ letter underscore p).
Definition stripped (p ax : string) : string :=
  match plain_letters p with EmptyString => ax | p' => append p' (String underscore ax) end.
(** the first axis with a name *)
Definition first_axis (N : naming) (axes : list axis) (k : string) (j : nat) : Prop :=
  (exists a, nth_error axes j = Some a /\ alias N a k = true) /\
  forall i a, (i < j)%nat -> nth_error axes i = Some a -> alias N a k = false.

(** the selections made on the axes *)
Definition all_selected (N : naming) (axes : list axis) (kw : list (string * request)) (inds : list (list Z)) : Prop :=
  List.length inds = List.length axes /\
  forall j a l, nth_error axes j = Some a -> nth_error inds j = Some l -> selected N a (goes_to N axes kw j) l.

(** the keyword asks, by the letter [c] in its prefix, for something to be done to the axis called [ax] *)
Definition asks (N : naming) (axes : list axis) (c : ascii) (kv : string * request) (ax : string) : Prop :=
  exists p, call_named N axes (fst kv) p ax /\ letter c p.
(** the keyword without the letters m and s *)
Definition strips (N : naming) (axes : list axis) (kv kv' : string * request) : Prop :=
  snd kv' = snd kv /\ exists p ax, call_named N axes (fst kv) p ax /\ fst kv' = stripped p ax.
(** every request makes sense for the axis it goes to *)
Definition good_keywords (N : naming) (axes : list axis) (kw : list (string * request)) : Prop :=
  forall j a k v p ax, nth_error axes j = Some a -> goes_to N axes kw j k v -> named N a k p ax -> concerns N a p ax -> good_request N a p ax v.
