(** Slices, index lists and chunks: properties C18-C21. *)
From Coq Require Import ZArith List Bool Permutation Lia.
From Verif Require Import SortSpec IndexModel IndexSpec IndexProofs ChunkProofs.
Import ListNotations.
Open Scope Z_scope.

(** C18: a slice whose ends need no clipping expands to the positions that Python/numpy slicing
    selects.  [unclipped]: for a positive step, start >= -n and stop <= n where given; for a negative
    step, start <= n-1 and stop >= -n-1.  Missing for the full claim: see the refutation. *)
Theorem C18_expand_partial : forall s n, 0 <= n -> eff_step s <> 0 ->
  (0 < eff_step s -> (forall x, s_start s = Some x -> - n <= x) /\ (forall x, s_stop s = Some x -> x <= n)) ->
  (eff_step s < 0 -> (forall x, s_start s = Some x -> x <= n - 1) /\ (forall x, s_stop s = Some x -> - n - 1 <= x)) ->
  exists l, expand (SSlice s) n = Some l /\ selects s n l.
Proof. exact (fun s n Hn Hs Hp Hm => expand_selects s n Hn Hs (conj Hp Hm)). Qed.
Print Assumptions C18_expand_partial.

(** Out-of-range ends are not clipped: slice(-10,None) of 5 elements selects 0..4, but expand
    lists the five extra indices -5..-1 first; slice(2,9) of 5 elements gets 5..8 in addition. *)
Theorem C18_clipping_refuted :
  (expand (SSlice (Slice (Some (-10)) None None)) 5 = Some [-5; -4; -3; -2; -1; 0; 1; 2; 3; 4] /\
   selects (Slice (Some (-10)) None None) 5 [0; 1; 2; 3; 4]) /\
  (expand (SSlice (Slice (Some 2) (Some 9) None)) 5 = Some [2; 3; 4; 5; 6; 7; 8] /\
   selects (Slice (Some 2) (Some 9) None) 5 [2; 3; 4]).
Proof.
  split; (split; [reflexivity|]).
  - apply (selects_ext (arange 0 5 1)); [reflexivity|].
    split; [cbv; congruence|]. intros k x. apply (elem_arange 0 5 1). lia.
  - apply (selects_ext (arange 2 5 1)); [reflexivity|].
    split; [cbv; congruence|]. intros k x. apply (elem_arange 2 5 1). lia.
Qed.
Print Assumptions C18_clipping_refuted.

Example C18_example : expand (SSlice (Slice None (Some (-4)) (Some (-2)))) 7 = Some [6; 4] /\
  expand (SSlice (Slice (Some (-3)) None None)) 5 = Some [2; 3; 4].
Proof. split; reflexivity. Qed.

(** C19: for every list of valid indices the simplified index expands back to the list, and numpy
    selects exactly the list when the simplified index is applied to an array. *)
Theorem C19_simplify : forall ind n, in_range n ind ->
  expand (simplify ind) n = Some ind /\ np_selects (simplify ind) n ind.
Proof.
  exact (fun ind n H => conj (expand_simplify ind n (Forall_impl _ (fun i Hi => proj1 Hi) H)) (simplify_selects ind n H)).
Qed.
Print Assumptions C19_simplify.

Example C19_example :
  simplify [6; 4; 2; 0] = SSlice (Slice (Some 6) None (Some (-2))) /\
  simplify [1; 2; 3] = SSlice (Slice (Some 1) (Some 4) (Some 1)) /\ simplify [1; 2; 4] = SList [1; 2; 4] /\
  in_range 7 [6; 4; 2; 0].
Proof. repeat split; repeat constructor; lia. Qed.

(** Negative indices are outside the claim: [-1] becomes slice(-1,0), which selects nothing. *)
Theorem C19_negative_refuted : simplify [-1] = SSlice (Slice (Some (-1)) (Some 0) (Some 1)) /\
  selects (Slice (Some (-1)) (Some 0) (Some 1)) 5 [].
Proof.
  split; [reflexivity|]. apply (selects_ext (arange 4 0 1)); [reflexivity|].
  split; [cbv; congruence|]. intros k x. apply (elem_arange 4 0 1). lia.
Qed.
Print Assumptions C19_negative_refuted.

(** C20: every position of the view lies in exactly one piece; each piece is a block of the output
    whose elements come from the contiguous block (start, count) of the source, in order. *)
Theorem C20_loop_contiguous : forall inds,
  Forall (fun l => l <> []) inds -> Forall (Forall (fun i => 0 <= i)) inds ->
  exists pieces, loop_contiguous inds = Some pieces /\
    (forall p, position (map zlen inds) p ->
       exists! k, exists outsl start count, elem pieces k (outsl, start, count) /\ covers outsl p) /\
    (forall outsl start count, In (outsl, start, count) pieces ->
       Forall2 (fun ij c => 0 <= fst ij /\ 0 < c /\ snd ij = fst ij + c) outsl count /\
       forall p, covers outsl p -> exists q, picks inds p q /\ copied start outsl p q).
Proof. exact loop_contiguous_spec. Qed.
Print Assumptions C20_loop_contiguous.

Example C20_example : loop_contiguous [[4; 5; 7]; [1; 2]] =
  Some [([(0, 2); (0, 2)], [4; 1], [2; 2]); ([(2, 3); (0, 2)], [7; 1], [1; 2])].
Proof. reflexivity. Qed.

(** C21: the chunks' index products are, together, the view's index product (each element the
    right number of times); preserved axes are whole in every chunk; no chunk has more elements
    than the limit or (when they alone exceed it) than the product of the preserved axes. *)
Theorem C21_loop_mem : forall MAX inds preserve, 1 <= MAX -> Forall (fun l => l <> []) inds ->
  NoDup preserve -> Forall (fun i => (i < length inds)%nat) preserve ->
  Permutation (flat_map product (loop_mem MAX inds preserve)) (product inds) /\
  (forall c, In c (loop_mem MAX inds preserve) ->
     (forall i, In i preserve -> nth i c [] = nth i inds []) /\
     size c <= Z.max MAX (fold_right (fun i a => zlen (nth i inds []) * a) 1 preserve) /\
     length c = length inds).
Proof. exact loop_mem_spec. Qed.
Print Assumptions C21_loop_mem.

Example C21_example :
  loop_mem 2 [[0; 1; 2]; [5; 6; 8]] [] =
    [[[0]; [5; 6]]; [[0]; [8]]; [[1]; [5; 6]]; [[1]; [8]]; [[2]; [5; 6]]; [[2]; [8]]] /\
  loop_mem 6 [[0; 1; 2]; [5; 6; 8]] [0%nat] = [[[0; 1; 2]; [5; 6]]; [[0; 1; 2]; [8]]].
Proof. split; reflexivity. Qed.
