(** Model of the whole of /repo/pygeode/var.py:386-427 Var.__call__ for numbers: selection by keywords (SelectModel) with the means
    and squeezes that the letters m and s ask for. *)
From Coq Require Import ZArith List Bool QArith_base Qcanon String.
From Verif Require Import IndexModel IndexSpec ArrModel ViewModel AxisModel VarOpsModel NumModel ReduceModel StencilModel SelectModel.
Import ListNotations.
Open Scope Z_scope.

Section Call.
Context (N : naming) (env : axenv) (junk : list Z -> num) (MAX_ARRAY_SIZE : Z).
Notation var := (ViewModel.var axis num).

(* axis.py:506-525  auxasvar('weights') *)
Definition weights_var (a : axis) (ws : list Q) : var :=
  Var [a] (Values (Arr [axis_len a] (fun p => Fin (Q2Qc (nth (Z.to_nat (nth 0 p 0)) ws 0%Q))))).
(* var.py:727-757  getweights(iaxes): None for no weights.  The product of several weights is not modelled (None outside) *)
Definition get_weights (axes : list axis) : option (option var) :=
  match flat_map (fun a => match auxarray N a "weights" with Some ws => [weights_var a ws] | None => [] end) axes with
  | [] => Some None
  | [w] => Some (Some w)
  | _ => None
  end.
Definition distinct (js : list nat) : bool := Nat.eqb (List.length (nodup Nat.eq_dec js)) (List.length js).
(* reduce.py:676-714  mean(names) with the default weights.  Reducing one axis twice is not modelled (None) *)
Definition mean_names (x : var) (names : list string) : option var :=
  bind (sequence (map (which_axis N (var_axes x)) names)) (fun js =>
  if negb (distinct js) then None else
  bind (sequence (map (nth_error (var_axes x)) js)) (fun axes =>
  bind (get_weights axes) (fun w =>
  match w with
  | None => reduced env junk (mean_view env junk MAX_ARRAY_SIZE) x js
  | Some w => weighted_var env junk (wmean_view env junk MAX_ARRAY_SIZE) w x js
  end))).
(* varoperations.py:7-55  squeeze(names) *)
Definition squeeze_names (x : var) (names : list string) : option var :=
  bind (sequence (map (which_axis N (var_axes x)) names)) (fun js => Some (squeeze_var env junk x js)).
(* var.py:386-427  __call__ without ignore_mismatch *)
Definition call_all (x : var) (kw : list (string * request)) : option var :=
  match prefixes N (var_axes x) kw [] [] [] with
  | None => None
  | Some (means, squeezes, new) =>
    match get_slices N (var_axes x) new with
    | Some (sls, []) =>
      bind (slice_var env junk x (map Sl sls)) (fun y =>
      bind (match means with [] => Some y | _ => mean_names y means end) (fun y =>
      match squeezes with [] => Some y | _ => squeeze_names y squeezes end))
    | _ => None
    end
  end.
End Call.
