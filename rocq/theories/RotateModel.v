(** Model of rotatelon: /repo/pygeode/axis.py:884-938.
    Simplifications: values are exact rationals; attributes are left out. *)
From Coq Require Import ZArith List Bool QArith Qround String.
From Verif Require Import IndexModel ArrModel ViewModel AxisModel VarOpsModel StencilModel SelectModel ConcatModel.
Import ListNotations.
Open Scope Z_scope.

(** x % m *)
Definition pymod (x m : Q) : Q := (x - m * inject_Z (Qfloor (x / m)))%Q.
(* axis.py:927-930 *)
Definition turned (origin l : Q) : Q :=
  let o := pymod origin 360 in let off := (o - origin)%Q in (pymod (l - o) 360 + o - off)%Q.

Section Rotate.
Context {V : Type} (N : naming) (env : axenv) (junk : list Z -> V).
(** the class Lon, and its name *)
Context (lon_class : list Z) (lon_name : Z).
(** the class NamedAxis, and the name concat gives to a new axis *)
Context (named : list Z) (concat_name : Z).
(* Lon(values) *)
Definition lon_axis (vals : list Q) : axis := Coord (MkCoord Plain lon_class lon_name vals [] [] (new_rtol env vals)).
(* var.replace_axes(lon = newaxis): varoperations.py:280-302 *)
Definition replace_lon (x : var axis V) (f : axis -> axis) : option (var axis V) :=
  bind (which_axis N (var_axes x) "lon") (fun i => bind (nth_error (var_axes x) i) (fun a => replace_axes env junk x (set_at (var_axes x) i (f a)))).
(* var.sorted('lon'); the natural order of Lon is increasing *)
Definition sort_lon (x : var axis V) : option (var axis V) :=
  option_map (fun i => sort_var env junk x (map (fun j => if Nat.eqb j i then Some false else None) (seq 0 (List.length (var_axes x))))) (which_axis N (var_axes x) "lon").
(* axis.py:925-938  rotatelon *)
Definition rotatelon (x : var axis V) (origin : Q) (duplicate : bool) : option (var axis V) :=
  match which_axis N (var_axes x) "lon" with
  | None => Some x
  | Some _ =>
    bind (replace_lon x (fun a => lon_axis (map (turned origin) (axis_vals a)))) (fun y =>
    bind (sort_lon y) (fun v0 =>
    if duplicate then
      bind (call N env junk v0 [("lon"%string, One (Int 0))]) (fun '(z, _, _) =>
      bind (replace_lon z (fun _ => lon_axis [(origin + 360)%Q])) (fun w =>
      concat env junk named concat_name [v0; w] None))
    else Some v0))
  end.
End Rotate.
