(** Model of the search for the datasets that a collection of files makes up: /repo/pygeode/formats/data_scanner.py:346-578.
    Simplifications: the values of an axis (with their auxiliary values, data_scanner.py:261-289) and the names of variables (the pseudo-axis varlist) are coded as integers;
    a frozenset of values is the increasing list of its elements, so that equality of sets is equality of lists; a set of domains is a list without repetitions.
    The sample axes, which only serve to make axes of the right type, are left out. *)
From Coq Require Import ZArith List Bool String.
Import ListNotations.
Open Scope Z_scope.

(* data_scanner.py:348-361 *)
Record domain := Domain { d_names : list string; d_values : list (list Z) }.
Definition domain_dec (a b : domain) : {a = b} + {a <> b}.
Proof. decide equality; repeat (apply list_eq_dec || apply Z.eq_dec || apply string_dec || (intros; decide equality)). Defined.

(** ** sets of numbers *)
Definition member (x : Z) (l : list Z) : bool := existsb (Z.eqb x) l.
Fixpoint insert (x : Z) (l : list Z) : list Z :=
  match l with [] => [x] | y :: t => if x <? y then x :: l else if x =? y then l else y :: insert x t end.
Definition union (a b : list Z) : list Z := fold_right insert b a.
Definition inter (a b : list Z) : list Z := filter (fun x => member x b) a.
Definition subset (a b : list Z) : bool := forallb (fun x => member x b) a.

(* data_scanner.py:364-369 which_axis, 390 get_axis_values *)
Fixpoint which_axis (s : string) (l : list string) : option nat :=
  match l with [] => None | x :: l => if String.eqb s x then Some 0%nat else option_map S (which_axis s l) end.
Definition axis_values (d : domain) (s : string) : option (list Z) :=
  match which_axis s (d_names d) with Some i => nth_error (d_values d) i | None => None end.
Fixpoint put {A} (l : list A) (i : nat) (v : A) : list A :=
  match l, i with [], _ => [] | _ :: t, 0%nat => v :: t | x :: t, S i => x :: put t i v end.

(* data_scanner.py:398-411 _get_axis_names: pairs of place and name in decreasing order, the last place of each name, the time first *)
Definition pair_leb (a b : nat * string) : bool :=
  if Nat.ltb (fst a) (fst b) then true else if Nat.eqb (fst a) (fst b) then String.leb (snd a) (snd b) else false.
Fixpoint insert_down (x : nat * string) (l : list (nat * string)) : list (nat * string) :=
  match l with [] => [x] | y :: t => if pair_leb y x then x :: l else y :: insert_down x t end.
Definition numbered (names : list string) : list (nat * string) := combine (seq 0 (List.length names)) names.
Definition has (s : string) (l : list string) : bool := existsb (String.eqb s) l.
Definition axis_names (ds : list domain) : list string :=
  let pairs := fold_right insert_down [] (flat_map (fun d => numbered (d_names d)) ds) in
  let names := rev (fold_left (fun l p => if has (snd p) l then l else l ++ [snd p]) pairs []) in
  if has "time" names then "time"%string :: filter (fun s => negb (String.eqb s "time")) names else names.

(** ** aggregation *)
(** a domain with the values of one axis taken out *)
Definition group := (list string * list (option (list Z)))%type.
Definition group_dec (a b : group) : {a = b} + {a <> b}.
Proof. decide equality; repeat (apply list_eq_dec || apply Z.eq_dec || apply string_dec || (intros; decide equality)). Defined.
(* data_scanner.py:371-375 without_axis *)
Definition without_axis (d : domain) (i : nat) : group := (d_names d, put (map Some (d_values d)) i None).
(* data_scanner.py:377-382 with_axis *)
Definition with_axis (g : group) (s : string) (v : list Z) : option domain :=
  match which_axis s (fst g) with
  | None => None
  | Some i => Some (Domain (fst g) (map (fun o => match o with Some x => x | None => [] end) (put (snd g) i (Some v))))
  end.
Fixpoint add_bin (g : group) (v : list Z) (bins : list (group * list (list Z))) : list (group * list (list Z)) :=
  match bins with
  | [] => [(g, [v])]
  | (h, vs) :: t => if group_dec g h then (h, v :: vs) :: t else (h, vs) :: add_bin g v t
  end.
Definition bins_of (ds : list domain) (s : string) : list (group * list (list Z)) :=
  fold_left (fun bins d => match which_axis s (d_names d) with
     | None => bins
     | Some i => match nth_error (d_values d) i with Some v => add_bin (without_axis d i) v bins | None => bins end
     end) ds [].
Definition distinct (ds : list domain) : list domain := nodup domain_dec ds.
(* data_scanner.py:424-447 _aggregate_along_axis *)
Definition aggregate (ds : list domain) (s : string) : list domain :=
  distinct (filter (fun d => match which_axis s (d_names d) with None => true | Some _ => false end) ds ++
   flat_map (fun '(g, vs) => match with_axis g s (fold_right union [] vs) with Some d => [d] | None => [] end) (bins_of ds s)).
(* data_scanner.py:451-457 _get_prime_domains *)
Definition prime_domains (ds : list domain) : list domain := fold_left aggregate (axis_names ds) ds.

(** ** merging *)
Definition same_names (a b : list string) : bool := if list_eq_dec string_dec a b then true else false.
(* data_scanner.py:478-501: the values of the other domain, if it has the axis *)
Definition other_values (d2 : domain) (s : string) (v1 : list Z) : list Z := match axis_values d2 s with Some v => v | None => v1 end.
Definition zip (d1 d2 : domain) (f : list Z -> list Z -> list Z) : list (list Z) :=
  map (fun '(s, v1) => f v1 (other_values d2 s v1)) (combine (d_names d1) (d_values d1)).
Definition useful (d1 d2 : domain) (i : nat) : bool :=
  match nth_error (combine (d_names d1) (d_values d1)) i with
  | Some (s, v1) => let v2 := other_values d2 s v1 in let n := List.length (union v1 v2) in Nat.ltb (List.length v1) n && Nat.ltb (List.length v2) n
  | None => false
  end.
Definition is_empty (l : list Z) : bool := match l with [] => true | _ => false end.
Definition merge_into (d1 d2 : domain) : list domain :=
  let inters := zip d1 d2 inter in
  let unions := zip d1 d2 union in
  if Nat.ltb 1 (List.length (filter is_empty inters)) then []
  else flat_map (fun i => match nth_error unions i with
         | Some u => let vs := put inters i u in if existsb is_empty vs then [] else [Domain (d_names d1) vs]
         | None => [] end)
       (filter (useful d1 d2) (seq 0 (List.length (d_values d1)))).
(* data_scanner.py:462-523 _merge_domains *)
Definition merge_domains (d1 d2 : domain) : list domain :=
  let names := axis_names [d1; d2] in
  if same_names (axis_names [d1]) names then merge_into d1 d2
  else if same_names (axis_names [d2]) names then merge_into d2 d1
  else [].
Definition mem_domain (d : domain) (l : list domain) : bool := if in_dec domain_dec d l then true else false.
Definition minus (a b : list domain) : list domain := filter (fun d => negb (mem_domain d b)) a.
(* data_scanner.py:525-537 _merge_all_domains; the loop, at most fuel times: None = still running *)
Definition merge_round (ds merged : list domain) : list domain :=
  distinct (minus (flat_map (fun d1 => flat_map (fun d2 => if domain_dec d1 d2 then [] else merge_domains d1 d2) merged) ds) merged).
Fixpoint merge_loop (fuel : nat) (ds merged : list domain) : option (list domain) :=
  match fuel with
  | 0%nat => None
  | S f => match merge_round ds merged with [] => Some merged | new => merge_loop f ds (merged ++ new) end
  end.
Definition merge_all (fuel : nat) (ds : list domain) : option (list domain) := option_map (fun m => distinct (ds ++ m)) (merge_loop fuel ds ds).
(* data_scanner.py:541-553 _cleanup_subdomains *)
Definition below (d1 d2 : domain) : bool :=
  same_names (axis_names [d1]) (axis_names [d2]) &&
  forallb (fun s => match axis_values d1 s, axis_values d2 s with Some v1, Some v2 => subset v1 v2 | _, _ => false end) (axis_names [d2]).
Definition cleanup (ds : list domain) : list domain :=
  filter (fun d1 => negb (existsb (fun d2 => (if domain_dec d1 d2 then false else true) && below d1 d2) ds)) ds.
(* data_scanner.py:558-578 _get_domains, from the domains of the variables in the files *)
Fixpoint domains_loop (fuel inner : nat) (ds : list domain) : option (list domain) :=
  match fuel with
  | 0%nat => None
  | S f => match merge_all inner ds with
           | None => None
           | Some m => let ds' := cleanup m in if Nat.eqb (List.length ds') (List.length ds) then Some ds' else domains_loop f inner ds'
           end
  end.
Definition get_domains (fuel : nat) (pieces : list domain) : option (list domain) := domains_loop fuel fuel (prime_domains (distinct pieces)).
