(** Model of the record-search routines of /repo/pygeode/timeaxis.c (lines 21-205)
    and of the Python callers Time.map_to, Time.common_map (timeaxis.py:162-288)
    and timeutils._uniquify (timeutils.py:12-29).

    A flat C array [int values[n*natts]] is a list of rows, each a list of
    [natts] integers; reading row [i] is [znth rows i], [None] = read outside the
    array.  C ints are unbounded [Z] (so cmpval's subtraction, timeaxis.c:158,
    cannot overflow; see DESIGN.md). *)
From Coq Require Import ZArith List Bool.
From Verif Require Import Loop.
Import ListNotations.
Open Scope Z_scope.

Notation row := (list Z) (only parsing).

Definition znth {A} (l : list A) (i : Z) : option A :=
  if i <? 0 then None else nth_error l (Z.to_nat i).

Definition zlen {A} (l : list A) : Z := Z.of_nat (length l).

(* timeaxis.c:43-54  the inner for-loop over the attributes of get_index;
   [Undecided] happens only when natts = 0 *)
Inductive scan_result := KeyLess | KeyGreater | Match | Undecided.
Fixpoint scan (key r : row) : scan_result :=
  match key, r with
  | k :: ks, v :: vs =>
    if k <? v then KeyLess
    else if k >? v then KeyGreater
    else match ks with [] => Match | _ => scan ks vs end
  | _, _ => Undecided
  end.

(* timeaxis.c:33-55  one iteration of  while (!match) *)
Definition get_index_step (values : list row) (key : row) (st : Z * Z) : (Z * Z) + option Z :=
  let '(lower, upper) := st in
  if lower >? upper then inr (Some (-1))
  else
    let i := Z.quot (lower + upper) 2 in
    match znth values i with
    | None => inr None
    | Some r =>
      match scan key r with
      | KeyLess => inl (lower, i - 1)
      | KeyGreater => inl (i + 1, upper)
      | Match => inr (Some i)
      | Undecided => inl (lower, upper)
      end
    end.

(* timeaxis.c:23-58  get_index; None = out-of-bounds read or no termination *)
Definition get_index (values : list row) (key : row) : option Z :=
  match loop (fuel_for (zlen values)) (get_index_step values key) (0, zlen values - 1) with
  | inl _ => None
  | inr r => r
  end.

(* timeaxis.c:62-71  get_indices *)
Fixpoint get_indices (invalues outvalues : list row) : option (list Z) :=
  match outvalues with
  | [] => Some []
  | o :: os =>
    match get_index invalues o with
    | None => None
    | Some i => match get_indices invalues os with None => None | Some l => Some (i :: l) end
    end
  end.

(* timeaxis.c:76-100  uniquify; [out] = the rows written so far *)
Fixpoint uniquify_loop (ins out : list row) : option (list row) :=
  match ins with
  | [] => Some out
  | x :: xs =>
    let index := match out with [] => Some (-1) | _ => get_index out x end in
    match index with
    | None => None
    | Some i => if i =? -1 then uniquify_loop xs (out ++ [x]) else uniquify_loop xs out
    end
  end.
Definition uniquify (ins : list row) : option (list row) := uniquify_loop ins [].

(* timeaxis.c:124-128  "le": is sorted[middle] <= lookup ? *)
Fixpoint row_le (s l : row) : bool :=
  match s, l with
  | a :: s', b :: l' => if a <? b then true else if a >? b then false else row_le s' l'
  | _, _ => true
  end.

(* timeaxis.c:120-147  the binary search of nearest_lower *)
Definition nl_step (sorted : list row) (look : row) (st : Z * Z) : (Z * Z) + option Z :=
  let '(lower, upper) := st in
  if lower <=? upper then
    let middle := Z.quot (lower + upper + 1) 2 in
    match znth sorted middle with
    | None => inr None
    | Some r =>
      if row_le r look then
        let lower := middle in
        if lower =? upper then inr (Some lower) else inl (lower, upper)
      else inl (lower, middle - 1)
    end
  else inr (Some (if lower =? upper then lower else -1)).

(* timeaxis.c:112-153  nearest_lower, one lookup *)
Definition nearest_lower (sorted : list row) (look : row) : option Z :=
  match loop (fuel_for (zlen sorted)) (nl_step sorted look) (0, zlen sorted - 1) with
  | inl _ => None
  | inr r => r
  end.

(* timeaxis.c:156-162  cmpval *)
Fixpoint cmpval (x y : row) : Z :=
  match x, y with
  | a :: x', b :: y' => let c := a - b in if negb (c =? 0) then c else cmpval x' y'
  | _, _ => 0
  end.

(* timeaxis.c:165-205  common_map.  State: (ai, bi, pairs written so far, newest first). *)
Definition cm_step (a b : list row) (st : Z * Z * list (Z * Z))
  : (Z * Z * list (Z * Z)) + option (list (Z * Z)) :=
  let '(ai, bi, m) := st in
  if (ai <? zlen a) && (bi <? zlen b) then
    match znth a ai, znth b bi with
    | Some ra, Some rb =>
      let cmp := cmpval ra rb in
      if cmp =? 0 then
        let m := (ai, bi) :: m in
        let rep_a := if ai <? zlen a - 1 then
            match znth a (ai + 1) with Some ra' => Some (cmpval ra ra' =? 0) | None => None end
          else Some false in
        let rep_b := if bi <? zlen b - 1 then
            match znth b (bi + 1) with Some rb' => Some (cmpval rb rb' =? 0) | None => None end
          else Some false in
        match rep_a with
        | None => inr None
        | Some true => inl (ai + 1, bi, m)
        | Some false =>
          match rep_b with
          | None => inr None
          | Some true => inl (ai, bi + 1, m)
          | Some false => inl (ai + 1, bi + 1, m)
          end
        end
      else if cmp <? 0 then inl (ai + 1, bi, m) else inl (ai, bi + 1, m)
    | _, _ => inr None
    end
  else inr (Some m).

Definition common_map (a b : list row) : option (list (Z * Z)) :=
  match loop (fuel_for (zlen a + zlen b)) (cm_step a b) (0, 0, []) with
  | inl _ => None
  | inr None => None
  | inr (Some m) => Some (rev m)
  end.

(** Python layer *)

(* myvalues[isrt, :]  (timeaxis.py:212) *)
Definition take {A} (l : list A) (ind : list Z) : option (list A) :=
  fold_right (fun i acc => match znth l i, acc with Some x, Some r => Some (x :: r) | _, _ => None end)
             (Some []) ind.

(* timeaxis.py:162-231  Time.map_to, from the point where [mine] and [theirs] are the
   rows of the common fields.  [isrt] is the result of np.argsort(self.values). *)
Definition time_map_to (isrt : list Z) (mine theirs : list row) : option (list Z) :=
  match take mine isrt with
  | None => None
  | Some sorted =>
    match get_indices sorted theirs with
    | None => None
    | Some ind =>
      let ind := filter (fun i => i >=? 0) ind in
      take isrt ind
    end
  end.

(* timeaxis.py:234-273  Time.common_map; [a_ind], [b_ind] = _argsort of the common fields
   (np.lexsort).  The buffers have max(na,nb) entries: [None] if more are written. *)
Definition time_common_map (a_ind b_ind : list Z) (a b : list row) : option (list (Z * Z)) :=
  match take a a_ind, take b b_ind with
  | Some sa, Some sb =>
    match common_map sa sb with
    | None => None
    | Some m =>
      if zlen m <=? Z.max (zlen a) (zlen b) then
        match take a_ind (map fst m), take b_ind (map snd m) with
        | Some x, Some y => Some (combine x y)
        | _, _ => None
        end
      else None
    end
  | _, _ => None
  end.

(* timeutils.py:12-29  _uniquify; [S] = _argsort(fields) *)
Definition py_uniquify (S : list Z) (fields : list row) : option (list row) :=
  match take fields S with
  | None => None
  | Some ins => uniquify ins
  end.

(** Which of the six date fields an axis carries (climatological axes lack some). *)
From Verif Require Import CalModel.
Record mask := mkmask { my : bool; mm : bool; md : bool; mh : bool; mmi : bool; ms : bool }.

(* the axis carries at least one field (timeaxis.py:196 branches on len(self_f) == 0) *)
Definition some_field (k : mask) : Prop := k <> mkmask false false false false false false.

(* timeaxis.py:280-285 common_fields + np.vstack(...).transpose() (line 204): the record
   of a date on an axis that carries the fields of the mask, in the order of allowed_fields *)
Definition project (k : mask) (d : date) : row :=
  (if my k then [year d] else []) ++ (if mm k then [month d] else []) ++
  (if md k then [day d] else []) ++ (if mh k then [hour d] else []) ++
  (if mmi k then [minute d] else []) ++ (if ms k then [second d] else []).

(* the auxarrays entry of one time: only the fields of the mask are present *)
Definition mask_date (k : mask) (d : date) : pdate :=
  let p (b : bool) v := if b then Some v else None in
  mkpdate (p (my k) (year d)) (p (mm k) (month d)) (p (md k) (day d))
          (p (mh k) (hour d)) (p (mmi k) (minute d)) (p (ms k) (second d)).

(* timeaxis.py:113  the values array an axis with these fields gets (exact arithmetic) *)
Definition axis_value (c : cal) (start : pdate) (u : unit) (k : mask) (d : date) : option QArith_base.Q :=
  date_as_val c start u (mask_date k d).
