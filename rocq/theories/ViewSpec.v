(** Vocabulary for views and lazy variables. *)
From Coq Require Import ZArith List.
From Verif Require Import SortSpec IndexModel IndexSpec ArrModel ViewModel.
Import ListNotations.
Open Scope Z_scope.

Definition increasing (l : list Z) : Prop := forall i j x y, elem l i x -> elem l j y -> i < j -> x < y.
Definition constant (l : list Z) : Prop := forall x y, In x l -> In y l -> x = y.

(** the array [r] has shape [s] and element [D p] at every position [p] *)
Definition array_is {V} (r : arr V) (s : list Z) (D : list Z -> V) : Prop :=
  shape r = s /\ forall p, position s p -> val r p = D p.

Definition plus (start p : list Z) : list Z := map (fun '(a, b) => a + b) (combine start p).

(** index lists that View.get passes on to a variable *)
Definition request (n : Z) (l : list Z) : Prop := l <> [] /\ in_range n l /\ (increasing l \/ constant l).

(** The variable [x] holds the data [D]: however its data source is asked (whole array, a view of its
    axes, a block), it answers with the elements of [D] that were asked for. *)
Definition represents {A V} (ops : axops A) (x : var A V) (D : list Z -> V) : Prop :=
  match var_source x with
  | Values a => array_is a (map (len ops) (var_axes x)) D
  | GetView f => forall inds, Forall2 (fun a l => request (len ops a) l) (var_axes x) inds ->
      exists r, f (view_of_inds (var_axes x) inds) = Some r /\
                array_is r (map zlen inds) (fun p => D (gather inds p))
  | GetValues f => forall start count,
      Forall2 (fun a sc => 0 <= fst sc /\ 0 < snd sc /\ fst sc + snd sc <= len ops a) (var_axes x) (combine start count) ->
      length start = length count ->
      exists r, f start count = Some r /\ array_is r count (fun p => D (plus start p))
  end.
