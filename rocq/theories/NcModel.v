(** Model of writing a dataset to a netCDF file and reading it back: /repo/pygeode/formats/netcdf4.py with cfmeta=False, unlimited=None
    and without groups, and /repo/pygeode/tools.py:136-177 (whichaxis by name), /repo/pygeode/axis.py:571-600 (aliases).
    The netCDF library is a set of named dimensions and of named arrays on them.  Attributes, types of numbers, compression and progress
    bars are left out; values are exact rationals. *)
From Coq Require Import ZArith List Bool QArith_base String Ascii.
From Verif Require Import IndexModel IndexSpec ArrModel ViewModel ViewSpec AxisModel VarOpsModel UfuncModel StencilModel DatasetModel.
Import ListNotations.
Open Scope Z_scope.
Open Scope list_scope.

(** the file *)
Record ncvar := MkNc { nc_name : string; nc_dims : list string; nc_data : list Z -> Q }.
Record ncfile := MkFile { f_dims : list (string * Z); f_vars : list ncvar }.

(** position of x in l *)
Fixpoint index_of (x : Z) (l : list Z) : option Z :=
  match l with [] => None | y :: l => if y =? x then Some 0 else option_map (Z.add 1) (index_of x l) end.
Definition locate (c : list (list Z)) (q : list Z) : option (list Z) :=
  if Nat.eqb (List.length c) (List.length q) then sequence (map (fun '(l, x) => index_of x l) (combine c q)) else None.
(** distinct names *)
Fixpoint distinct (l : list string) : bool := match l with [] => true | s :: l => negb (mem s l) && distinct l end.
(** str.lower *)
Definition lower_char (c : ascii) : ascii := let n := nat_of_ascii c in if (Nat.leb 65 n && Nat.leb n 90)%bool then ascii_of_nat (n + 32) else c.
Fixpoint lower (s : string) : string := match s with EmptyString => EmptyString | String c s => String (lower_char c) (lower s) end.

Section File.
Context (env : axenv) (junk : list Z -> Q) (enc : string -> Z) (MAX_ARRAY_SIZE : Z) (fill : Q).
(** the classes NCDim and NamedAxis *)
Context (dim_class named_class : list Z).

(** ** saving *)
(* tools.py:180-218  can_map, on objects (as UfuncModel.can_map); None = ValueError *)
Definition can_map_pc_obj (ap ac : axobj) : option (option axobj) :=
  if axis_eq (a_axis ap) (a_axis ac) then Some (Some ap)
  else if (match explicit_class (a_axis ap), explicit_class (a_axis ac) with Some c, Some d => negb (c =? d) | _, _ => false end) then Some None
  else
    let mp := axis_map_to env (a_axis ap) (a_axis ac) in
    let mc := axis_map_to env (a_axis ac) (a_axis ap) in
    if (match mc with Some m => zlen m =? axis_len (a_axis ap) | None => false end) then Some (Some ap)
    else if (match mp with Some m => zlen m =? axis_len (a_axis ac) | None => false end) then Some (Some ac)
    else match mp, mc with Some _, Some _ => None | _, _ => Some None end.
Definition can_map_obj (a1 a2 : axobj) : option (option axobj) :=
  if prefix (axis_class (a_axis a1)) (axis_class (a_axis a2)) then can_map_pc_obj a1 a2
  else if prefix (axis_class (a_axis a2)) (axis_class (a_axis a1)) then can_map_pc_obj a2 a1
  else Some None.
(* tools.py:246-255 *)
Fixpoint merge_obj (a : axobj) (out_axes : list axobj) : option (list axobj) :=
  match out_axes with
  | [] => Some [a]
  | outa :: t =>
    match can_map_obj a outa with
    | None => None
    | Some (Some ap) => Some (ap :: t)
    | Some None => option_map (cons outa) (merge_obj a t)
    end
  end.
Fixpoint merge_objs (axes out_axes : list axobj) : option (list axobj) :=
  match axes with
  | [] => Some out_axes
  | a :: t => bind (merge_obj a out_axes) (merge_objs t)
  end.
(* tools.py:224-265  combine_axes *)
Definition combine_objs (axis_lists : list (list axobj)) : option (list axobj) :=
  match axis_lists with
  | [A] => Some A
  | _ =>
    bind (merge_objs (List.concat axis_lists) []) (fun out_axes =>
      match filter (fun A => forallb (fun outa => existsb (fun a => (a_id a =? a_id outa) || axis_eq (a_axis a) (a_axis outa)) A) out_axes) axis_lists with
      | A :: _ => Some A
      | [] => Some out_axes
      end)
  end.

(** an axis as a variable *)
Definition axis_var (a : axobj) : vobj Q := MkVar (a_name a) [a] (Values (Arr [axis_len (a_axis a)] (fun p => nth (Z.to_nat (hd 0 p)) (axis_vals (a_axis a)) 0%Q))).
Definition is_dummy (a : axobj) : bool := match a_axis a with Coord c => match c_kind c with Dummy => true | _ => false end | _ => false end.
(* netcdf4.py:72-96  tidy_axes *)
Definition has_values (ds : @dataset Q) (a : axobj) : option bool :=
  match getitem ds (a_name a) with Some (AnAxis b) => Some (negb (is_dummy b)) | Some (DatasetModel.AVar _) => Some true | None => None end.
Definition tidy_axes (next : Z) (ds : @dataset Q) : option (@dataset Q) :=
  bind (combine_objs (map v_axes (ds_vars ds))) (fun axes =>
  bind (sequence (map (has_values ds) axes)) (fun keep =>
  let vars := ds_vars ds ++ map axis_var (map fst (filter snd (combine axes keep))) in
  if distinct (map v_name vars) then make_dataset env junk enc next vars else None)).

(* netcdf4.py:139-143  ncvar[v.slices] = v.get(var), for all parts *)
Definition store_chunk (c : list (list Z)) (r : arr Q) (data : list Z -> Q) (q : list Z) : Q := match locate c q with Some p => val r p | None => data q end.
Definition write_chunk (x : var axis Q) (data : option (list Z -> Q)) (c : list (list Z)) : option (list Z -> Q) :=
  bind data (fun data => bind (ViewModel.get (axis_ops env) junk (view_of_inds (var_axes x) c) x true true) (fun r =>
  if zlist_eqb (shape r) (map zlen c) then Some (store_chunk c r data) else None)).
Definition write_data (x : var axis Q) : option (list Z -> Q) :=
  fold_left (write_chunk x) (loop_mem MAX_ARRAY_SIZE (map (fun a => arange 0 (axis_len a) 1) (var_axes x)) []) (Some (fun _ => fill)).
(* netcdf4.py:113-117, 134-143  one variable; the library refuses unknown dimensions.  Simplification: so it does a variable whose length
   is not that of the dimension *)
Definition dim_len (dims : list (string * Z)) (n : string) : option Z := option_map snd (find (fun d => String.eqb (fst d) n) dims).
Definition write_ncvar (dims : list (string * Z)) (v : vobj Q) : option ncvar :=
  if forallb (fun a => match dim_len dims (a_name a) with Some n => n =? axis_len (a_axis a) | None => false end) (v_axes v)
  then option_map (MkNc (v_name v) (map a_name (v_axes v))) (write_data (var_of v)) else None.
(* netcdf4.py:99-144  write_var; a dimension or variable cannot be created twice *)
Definition write_var (ds : @dataset Q) : option ncfile :=
  bind (combine_objs (map v_axes (ds_vars ds))) (fun axes =>
  let dims := map (fun a => (a_name a, axis_len (a_axis a))) axes in
  if distinct (map fst dims) && distinct (map v_name (ds_vars ds))
  then option_map (MkFile dims) (sequence (map (write_ncvar dims) (ds_vars ds))) else None).
(* netcdf4.py:266-301  save *)
Definition save (next : Z) (ds : @dataset Q) : option ncfile := bind (tidy_axes next ds) write_var.

(** ** opening *)
(* netcdf4.py:9-12  make_dim; the object of a dimension is known by its place in the file *)
Fixpoint dim_obj (i : Z) (dims : list (string * Z)) (n : string) : option axobj :=
  match dims with
  | [] => None
  | (m, len) :: dims =>
    if String.eqb m n then let vals := indices_q (Z.to_nat len) in Some (MkAx i n (Coord (MkCoord Dummy dim_class (enc n) vals [] [] (new_rtol env vals))))
    else dim_obj (i + 1) dims n
  end.
(* netcdf4.py:33-54  NCVar, make_var *)
Definition make_ncvar (dims : list (string * Z)) (v : ncvar) : option (vobj Q) :=
  option_map (fun axes => MkVar (nc_name v) axes (GetValues (fun start count => Some (Arr count (fun p => nc_data v (plus start p))))))
             (sequence (map (dim_obj 0 dims) (nc_dims v))).
(* netcdf4.py:58-67  make_dataset *)
Definition read_dataset (f : ncfile) : option (@dataset Q) := bind (sequence (map (make_ncvar (f_dims f)) (f_vars f))) (make_dataset env junk enc (zlen (f_dims f))).

(* axis.py:571-600  has_alias, for the class NCDim *)
Definition reserved : list string := [""; "ncdim"; "dummyaxis"; "namedaxis"; "axis"]%string.
Definition has_alias (a : axobj) (n : string) : bool := String.eqb (lower (a_name a)) (lower n) || mem (lower n) reserved.
(* tools.py:136-177  whichaxis *)
Fixpoint whichaxis (axes : list axobj) (n : string) : option nat :=
  match axes with [] => None | a :: axes => if has_alias a n then Some 0%nat else option_map S (whichaxis axes n) end.
(* varoperations.py:275-303  Replace_axes with ignore_mismatch=True *)
Definition swap_axes (reps : list (string * axobj)) (axes : list axobj) : list axobj :=
  fold_left (fun new r => match whichaxis axes (fst r) with Some i => set_at new i (snd r) | None => new end) reps axes.
Definition replace_in (reps : list (string * axobj)) (v : vobj Q) : option (vobj Q) :=
  option_map (fun y => MkVar (v_name v) (swap_axes reps (v_axes v)) (var_source y)) (replace_axes env junk (var_of v) (map a_axis (swap_axes reps (v_axes v)))).

(* netcdf4.py:177-189  the axes found; [i] is the identity of the next new object *)
Fixpoint find_axes (ds : @dataset Q) (i : Z) (dims : list axobj) : option (list (string * axobj)) :=
  match dims with
  | [] => Some []
  | dim :: dims =>
    if existsb (fun v => String.eqb (v_name v) (a_name dim)) (ds_vars ds) then
      match getitem ds (a_name dim) with
      | Some (DatasetModel.AVar v) =>
        if Nat.eqb (List.length (v_axes v)) 1 then
          bind (var_get env junk (var_of v)) (fun r =>
          let vals := map (fun k => val r [k]) (arange 0 (hd 0 (shape r)) 1) in
          option_map (cons (a_name dim, MkAx i (a_name dim) (Coord (MkCoord Named named_class (enc (a_name dim)) vals [] [] (new_rtol env vals))))) (find_axes ds (i + 1) dims))
        else find_axes ds (i + 1) dims
      | _ => None
      end
    else find_axes ds (i + 1) dims
  end.
(* netcdf4.py:173-193  dims2axes *)
Definition dims2axes (next : Z) (ds : @dataset Q) : option (@dataset Q) :=
  bind (find_axes ds next (ds_axes ds)) (fun reps =>
  bind (sequence (map (replace_in reps) (ds_vars ds))) (fun vars =>
  bind (make_dataset env junk enc (next + zlen (ds_axes ds)) vars) (fun ds' =>
  ds_remove env junk enc (next + zlen (ds_axes ds)) ds' (map fst reps)))).
(* netcdf4.py:197-261  open *)
Definition open_file (f : ncfile) : option (@dataset Q) := bind (read_dataset f) (dims2axes (zlen (f_dims f))).
End File.
