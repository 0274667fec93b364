(** The data computed by the mean, variance and standard deviation variables. *)
From Coq Require Import ZArith List Bool Lia QArith_base Qcanon.
From Verif Require Import IndexModel IndexSpec IndexProofs ArrModel ArrProofs ViewModel ViewSpec AxisModel AxisSpec AxisProofs
     VarOpsModel VarOpsSpec NumModel ReduceModel ReduceSpec NumProofs FibreProofs LoopProofs ReduceProofs ReduceKinds StatProofs.
Import ListNotations.
Open Scope Z_scope.

Section Mean.
Context (env : axenv) (Henv : env_ok env) (MAX : Z) (HMAX : 1 <= MAX).
Context (junk : list Z -> num) (x : var axis num) (D : list Z -> num) (Hx : responds env x D)
        (Hgood : Forall good_axis (var_axes x)) (indices : list nat) (Hred : reducible x indices).
Notation G := (gone_axes (length (var_axes x)) indices).
Notation fibx := (fib x D indices).

Lemma answer_map {W X} f (F : list Z -> W) (h : W -> X) :
  answer x indices f F -> answer x indices (fun v => match f v with Some a => Some (map_arr h a) | None => None end) (fun k => h (F k)).
Proof.
  intros H L HL. destruct (H L HL) as (r & Hr & Ha). rewrite Hr. eexists. split; [reflexivity|].
  now apply map_arr_spec.
Qed.
Lemma answer_zip {W X Y} f g (F : list Z -> W) (F' : list Z -> X) (h : W -> X -> Y) :
  answer x indices f F -> answer x indices g F' ->
  answer x indices (fun v => match f v, g v with Some a, Some b => zip_to h a b | _, _ => None end) (fun k => h (F k) (F' k)).
Proof.
  intros H H' L HL. destruct (H L HL) as (r & Hr & Ha). destruct (H' L HL) as (r' & Hr' & Ha'). rewrite Hr, Hr'.
  apply (zip_to_spec h r r' (map zlen L) (fun p => F (gather L p)) (fun p => F' (gather L p)) Ha Ha').
Qed.

Lemma fib_len k : position (dropped G (var_shape x)) k -> zlen (fibx k) = count_reduced (var_axes x) indices.
Proof.
  intros Hk. unfold fib. unfold zlen. rewrite map_length. apply (fibre_count (var_axes x) indices k); auto.
  - eapply idx_nd; eauto.
  - eapply idx_lt; eauto.
Qed.

Lemma mean_answer : answer x indices (mean_view env junk MAX x indices) (fun k => div (np_sum (fibx k)) (num_of_Z (zlen (fibx k)))).
Proof.
  eapply answer_ext; [exact (answer_map _ _ (fun s => div s (num_of_Z (count_reduced (var_axes x) indices))) (sum_answer env Henv MAX HMAX junk x D Hx Hgood indices Hred))|].
  intros k Hk. cbv beta. now rewrite (fib_len k Hk).
Qed.
Lemma count_answer : answer x indices (count_view env junk MAX x indices) (fun k => np_nansum (map not_nan (fibx k))).
Proof.
  apply (nan_answer env Henv MAX HMAX junk x D Hx Hgood indices Hred not_nan); [|reflexivity].
  intros. apply not_nan_summable.
Qed.
Lemma nansumsq_answer : answer x indices (nansumsq_view env junk MAX x indices) (fun k => np_nansum (map (fun v => mul v v) (fibx k))).
Proof.
  apply (nan_answer env Henv MAX HMAX junk x D Hx Hgood indices Hred (fun v => mul v v)); [|reflexivity].
  intros. apply square_summable.
Qed.
Lemma variance_answer : answer x indices (variance_view env junk MAX x indices)
  (fun k => let N := num_of_Z (zlen (fibx k)) in let m := div (np_sum (fibx k)) N in
     div (sub (np_sum (map (fun v => mul v v) (fibx k))) (mul N (mul m m))) (sub N (num_of_Z 1))).
Proof.
  intros L HL. destruct (sum_answer env Henv MAX HMAX junk x D Hx Hgood indices Hred L HL) as (s & Hs & Has).
  destruct (sumsq_answer env Henv MAX HMAX junk x D Hx Hgood indices Hred L HL) as (s2 & Hs2 & Has2).
  unfold variance_view. rewrite Hs, Hs2. cbv zeta.
  destruct (zip_to_spec (fun x2 y => div (sub x2 (mul (num_of_Z (count_reduced (var_axes x) indices))
     (mul (div y (num_of_Z (count_reduced (var_axes x) indices))) (div y (num_of_Z (count_reduced (var_axes x) indices))))))
     (sub (num_of_Z (count_reduced (var_axes x) indices)) (num_of_Z 1))) s2 s _ _ _ Has2 Has) as (r & Hr & Ha).
  exists r. split; [exact Hr|]. refine (array_is_ext _ _ _ _ Ha _). intros p Hp. cbv beta.
  rewrite (fib_len (gather L p)); [reflexivity|]. now apply (selection_position x indices L p HL).
Qed.

Hypothesis Hsum : forall k, position (dropped G (var_shape x)) k -> summable (fibx k).
Lemma nanmean_answer : answer x indices (nanmean_view env junk MAX x indices)
  (fun k => if ltb zero (np_nansum (map not_nan (fibx k))) then div (np_nansum (fibx k)) (np_nansum (map not_nan (fibx k))) else NaN).
Proof.
  exact (answer_zip _ _ _ _ (fun o n => if ltb zero n then div o n else NaN)
    (nansum_answer env Henv MAX HMAX junk x D Hx Hgood indices Hred Hsum) count_answer).
Qed.
Lemma nanvariance_answer : answer x indices (nanvariance_view env junk MAX x indices)
  (fun k => let s := np_nansum (fibx k) in let s2 := np_nansum (map (fun v => mul v v) (fibx k)) in let n := np_nansum (map not_nan (fibx k)) in
     if ltb (num_of_Z 1) n then div (sub s2 (div (mul s s) n)) (sub n (num_of_Z 1)) else NaN).
Proof.
  intros L HL. destruct (nansum_answer env Henv MAX HMAX junk x D Hx Hgood indices Hred Hsum L HL) as (s & Hs & Has).
  destruct (nansumsq_answer L HL) as (s2 & Hs2 & Has2). destruct (count_answer L HL) as (n & Hn & Han).
  unfold nanvariance_view. rewrite Hs, Hs2, Hn.
  destruct (zip_to_spec pair s n _ _ _ Has Han) as (r & Hr & Har). rewrite Hr.
  destruct (zip_to_spec (fun x2 '(x, n) => if ltb (num_of_Z 1) n then div (sub x2 (div (mul x x) n)) (sub n (num_of_Z 1)) else NaN) s2 r _ _ _ Has2 Har) as (r' & Hr' & Har').
  exists r'. split; [exact Hr'|exact Har'].
Qed.
End Mean.
