(** Vocabulary for smoothing. *)
From Coq Require Import ZArith List Bool.
From Verif Require Import IndexModel IndexSpec ViewModel NumModel.
Import ListNotations.
Open Scope Z_scope.

(** the data at 0 ... N-1 are continued by reflection: ..., 1, 0, 0, 1, ..., N-1, N-1, N-2, ... *)
Definition mirrored (N i : Z) : Z := if i <? 0 then - 1 - i else if N <=? i then 2 * N - 1 - i else i.

(** the sum over k of w_k * f(i + (K-1)/2 - k), for the weights w_0, ..., w_(K-1) and the reflected data f(0), ..., f(N-1) *)
Definition convolution (N : Z) (w : list num) (f : Z -> num) (i : Z) : num :=
  let K := zlen w in
  np_sum (map (fun k => mul (nth (Z.to_nat k) w zero) (f (mirrored N (i + (K - 1) / 2 - k)))) (arange 0 K 1)).
Definition normalised (kernel : list num) : list num := map (fun k => div k (np_sum kernel)) kernel.
Definition finite (x : num) : Prop := exists q, x = Fin q.
