(** Least squares with several regressors. *)
From Coq Require Import ZArith List Bool Lia QArith_base Qcanon Field.
From Verif Require Import SortSpec IndexModel IndexSpec IndexProofs NumModel NumProofs ReduceSpec StatProofs ClimLine RegressModel RegressSpec RegressLine MultiModel MultiSpec.
Import ListNotations.
Open Scope Z_scope.
Open Scope list_scope.

Lemma dot_nil b : dot [] b = Q2Qc 0. Proof. reflexivity. Qed.
Lemma dot_cons x a y b : dot (x :: a) (y :: b) = (x * y + dot a b)%Qc. Proof. reflexivity. Qed.
Lemma total_nil : total [] = Q2Qc 0. Proof. reflexivity. Qed.
Definition minus (a b : list Qc) : list Qc := map (fun '(x, y) => (x - y)%Qc) (combine a b).
Lemma dot_minus : forall xs a b, length a = length xs -> length b = length xs -> dot xs (minus a b) = (dot xs a - dot xs b)%Qc.
Proof.
  induction xs as [|x xs IH]; intros [|u a] [|v b] Ha Hb; try discriminate; [rewrite !dot_nil; ring|].
  unfold minus. cbn [combine map]. fold (minus a b). rewrite !dot_cons, IH by (cbn in *; lia). ring.
Qed.
Lemma dot_zero a : forall b, (forall y, In y b -> y = Q2Qc 0) -> dot a b = Q2Qc 0.
Proof.
  induction a as [|x a IH]; intros [|y b] H; try reflexivity. rewrite dot_cons, IH by (intros z Hz; apply H; now right). rewrite (H y) by now left. ring.
Qed.
Lemma dot_comm : forall a b, dot a b = dot b a.
Proof. induction a as [|x a IH]; intros [|y b]; try reflexivity. rewrite !dot_cons, IH. ring. Qed.
Lemma dot_plus {A} (f g : A -> Qc) : forall (l : list A) b, dot (map (fun x => f x + g x)%Qc l) b = (dot (map f l) b + dot (map g l) b)%Qc.
Proof. induction l as [|x l IH]; intros [|y b]; cbn [map]; try (rewrite !dot_nil; ring); [cbn; ring|]. rewrite !dot_cons, IH. ring. Qed.
Lemma dot_scale {A} (c : Qc) (f : A -> Qc) : forall (l : list A) b, dot (map (fun x => f x * c)%Qc l) b = (c * dot (map f l) b)%Qc.
Proof. induction l as [|x l IH]; intros [|y b]; cbn [map]; try (rewrite !dot_nil; ring); [cbn; ring|]. rewrite !dot_cons, IH. ring. Qed.
Lemma map_nth_seq {A} (d : A) (xs : list A) : map (fun j => nth j xs d) (seq 0 (length xs)) = xs.
Proof.
  induction xs as [|x xs IH]; [reflexivity|]. cbn [length seq map nth]. f_equal. rewrite <- seq_shift, map_map. exact IH.
Qed.
Lemma total_map_ext {A} (f g : A -> Qc) l : (forall x, In x l -> f x = g x) -> total (map f l) = total (map g l).
Proof. intros H. f_equal. apply map_ext_in, H. Qed.
Lemma total_map_plus {A} (f g : A -> Qc) l : total (map (fun x => f x + g x)%Qc l) = (total (map f l) + total (map g l))%Qc.
Proof. induction l as [|x l IH]; cbn [map]; [rewrite !total_nil; ring|]. rewrite !total_cons, IH. ring. Qed.
Lemma total_map_scale {A} (c : Qc) (f : A -> Qc) l : total (map (fun x => c * f x)%Qc l) = (c * total (map f l))%Qc.
Proof. induction l as [|x l IH]; cbn [map]; [rewrite !total_nil; ring|]. rewrite !total_cons, IH. ring. Qed.
Lemma total_squares_nonneg l : (Q2Qc 0 <= total (squares l))%Qc.
Proof.
  induction l as [|x l IH]; [apply Qcle_refl|]. unfold squares in *. cbn [map]. rewrite total_cons. replace (Q2Qc 0) with (Q2Qc 0 + Q2Qc 0)%Qc by (apply Qc_is_canon; reflexivity).
  apply Qcplus_le_compat; [apply square_nonneg|exact IH].
Qed.

Lemma minus_zero : forall cs bs, length cs = length bs -> (forall z, In z (minus cs bs) -> z = Q2Qc 0) -> cs = bs.
Proof.
  induction cs as [|c cs IH]; intros [|b bs] H Hz; try discriminate; [reflexivity|]. f_equal.
  - assert (c - b = Q2Qc 0)%Qc as E by (apply Hz; now left). replace c with ((c - b) + b)%Qc by ring. rewrite E. ring.
  - apply IH; [cbn in H; lia|]. intros z Hz'. apply Hz. now right.
Qed.
Section Fit.
Context (n : nat) (l : list observation) (Hl : forall xs y, In (xs, y) l -> length xs = n).
(** weighted sums of the regressors *)
Definition weigh (c : observation -> Qc) : list Qc := map (fun i => total (map (fun o => nth i (fst o) (Q2Qc 0) * c o)%Qc l)) (seq 0 n).
Lemma weigh_dot c d : dot (weigh c) d = total (map (fun o => c o * dot (fst o) d)%Qc l).
Proof.
  unfold weigh. revert Hl. induction l as [|o r IH]; intros Hr; cbn [map].
  - rewrite total_nil. rewrite dot_comm. apply dot_zero. intros y Hy. apply in_map_iff in Hy as (i & <- & _). reflexivity.
  - rewrite total_cons, <- IH by (intros xs y H; apply (Hr xs y); now right).
    assert (map (fun i => total (nth i (fst o) (Q2Qc 0) * c o :: map (fun o => nth i (fst o) (Q2Qc 0) * c o) r))%Qc (seq 0 n) =
            map (fun i => nth i (fst o) (Q2Qc 0) * c o + total (map (fun o => nth i (fst o) (Q2Qc 0) * c o) r))%Qc (seq 0 n)) as ->.
    { apply map_ext. intros i. apply total_cons. }
    rewrite (dot_plus (fun i => nth i (fst o) (Q2Qc 0) * c o)%Qc). f_equal. rewrite (dot_scale (c o) (fun i => nth i (fst o) (Q2Qc 0))). do 2 f_equal.
    destruct o as [xs y]. cbn [fst]. rewrite <- (Hr xs y) by now left. apply map_nth_seq.
Qed.
Lemma gram_row i : (i < n)%nat -> nth i (gram n l) [] = weigh (fun o => nth i (fst o) (Q2Qc 0)).
Proof.
  intros Hi. unfold gram. erewrite nth_indep by (rewrite map_length, seq_length; exact Hi).
  rewrite (map_nth (fun i => map (fun j => total (map (fun '(xs, y) => (nth i xs (Q2Qc 0) * nth j xs (Q2Qc 0))%Qc) l)) (seq 0 n)) (seq 0 n) 0%nat), seq_nth by exact Hi. unfold weigh. apply map_ext. intros j. apply total_map_ext. intros [xs y] _. cbn [fst plus Nat.add].
  change 0%Qc with (Q2Qc 0). ring.
Qed.
Lemma length_gram : length (gram n l) = n. Proof. unfold gram. now rewrite map_length, seq_length. Qed.
Lemma gram_square : square n (gram n l).
Proof. split; [exact length_gram|]. apply Forall_forall. intros r Hr. apply in_map_iff in Hr as (i & <- & _). now rewrite map_length, seq_length. Qed.
(** gram d = sum of x (x.d) *)
Lemma gram_times d : times_vector (gram n l) d = weigh (fun o => dot (fst o) d).
Proof.
  unfold times_vector. rewrite <- (map_nth_seq [] (gram n l)) at 1. rewrite length_gram, map_map. unfold weigh. apply map_ext_in. intros i Hi. apply in_seq in Hi. rewrite gram_row by lia.
  rewrite weigh_dot. reflexivity.
Qed.
Definition response : list Qc := weigh snd.
Lemma length_weigh c : length (weigh c) = n. Proof. unfold weigh. now rewrite map_length, seq_length. Qed.

Context (w : list (list Qc)) (Hw : inverse_of n (gram n l) w).
Definition solution : list Qc := times_vector w response.
Lemma length_solution : length solution = n.
Proof. unfold solution, times_vector. rewrite map_length. apply Hw. Qed.
Lemma normal : weigh (fun o => dot (fst o) solution) = response.
Proof. rewrite <- gram_times. apply Hw. apply length_weigh. Qed.
(** the residuals are orthogonal to the regressors *)
Lemma orthogonal d : total (map (fun o => (snd o - dot (fst o) solution) * dot (fst o) d)%Qc l) = Q2Qc 0.
Proof.
  assert (forall o : observation, ((snd o - dot (fst o) solution) * dot (fst o) d = snd o * dot (fst o) d + - Q2Qc 1 * (dot (fst o) solution * dot (fst o) d))%Qc) as E by (intros o; ring).
  rewrite (map_ext _ _ E), total_map_plus, total_map_scale, <- (weigh_dot snd d), <- (weigh_dot (fun o => dot (fst o) solution) d), normal. unfold response. ring.
Qed.
Lemma residual_split cs : length cs = n -> residual l cs = (residual l solution + total (squares (map (fun o => dot (fst o) (minus cs solution)) l)))%Qc.
Proof.
  intros Hc. unfold residual, squares. rewrite !map_map.
  assert (total (map (fun o => let '(xs, y) := o in (y - dot xs cs))%Qc l) = total (map (fun o => let '(xs, y) := o in (y - dot xs cs))%Qc l)) as _ by reflexivity.
  transitivity (total (map (fun o => (snd o - dot (fst o) solution) * (snd o - dot (fst o) solution) + dot (fst o) (minus cs solution) * dot (fst o) (minus cs solution)
     + (- (Q2Qc 1 + Q2Qc 1)) * ((snd o - dot (fst o) solution) * dot (fst o) (minus cs solution)))%Qc l)).
  { apply total_map_ext. intros [xs y] Ho. cbn [fst snd]. rewrite dot_minus by (rewrite ?length_solution, (Hl xs y Ho); auto). ring. }
  rewrite !total_map_plus, total_map_scale, orthogonal. rewrite (total_map_ext _ (fun x => (let '(xs, y) := x in y - dot xs solution) * (let '(xs, y) := x in y - dot xs solution))%Qc) by (intros [xs y] _; reflexivity). ring.
Qed.
Theorem solution_best : best_fit l solution.
Proof.
  intros cs Hc. rewrite length_solution in Hc. rewrite (residual_split cs Hc). set (s := total _). assert (Q2Qc 0 <= s)%Qc as Hs by apply total_squares_nonneg. split.
  - rewrite <- (Qcplus_0_r (residual l solution)) at 1. apply Qcplus_le_compat; [apply Qcle_refl|exact Hs].
  - intros E. assert (s = Q2Qc 0) as Es. { replace s with ((residual l solution + s) - residual l solution)%Qc by ring. rewrite E. ring. }
    assert (forall o, In o l -> dot (fst o) (minus cs solution) = Q2Qc 0) as H0 by (intros o Ho; apply (squares_zero _ Es); apply in_map_iff; exists o; auto).
    assert (times_vector (gram n l) (minus cs solution) = map (fun _ => Q2Qc 0) (seq 0 n)) as Eg.
    { rewrite gram_times. unfold weigh. apply map_ext. intros i. rewrite (total_map_ext _ (fun _ => Q2Qc 0 * Q2Qc 0)%Qc) by (intros o Ho; rewrite (H0 o Ho); ring). rewrite total_map_scale. ring. }
    assert (length (minus cs solution) = n) as Lm by (unfold minus; rewrite map_length, combine_length, Hc, length_solution; lia).
    pose proof (proj1 (proj2 Hw _ Lm)) as Ez. rewrite Eg in Ez.
    assert (forall z, In z (minus cs solution) -> z = Q2Qc 0) as Hz.
    { intros z Hz. rewrite <- Ez in Hz. apply in_map_iff in Hz as (r & <- & _). apply dot_zero. intros y Hy. apply in_map_iff in Hy as (? & <- & _). reflexivity. }
    apply minus_zero; [rewrite length_solution; exact Hc|exact Hz].
Qed.
(** yy - xy . b *)
Lemma rest_is : (total (map (fun o => snd o * snd o)%Qc l) - dot response solution)%Qc = residual l solution.
Proof.
  unfold response. rewrite weigh_dot. unfold residual, squares. rewrite map_map.
  transitivity (total (map (fun o => snd o * snd o + - Q2Qc 1 * (snd o * dot (fst o) solution) + - Q2Qc 1 * ((snd o - dot (fst o) solution) * dot (fst o) solution))%Qc l)).
  - rewrite !total_map_plus, !total_map_scale, orthogonal. unfold observation. ring.
  - apply total_map_ext. intros [xs y] _. cbn [fst snd]. ring.
Qed.
End Fit.

Lemma gram_kernel n l v : (forall xs y, In (xs, y) l -> length xs = n) -> Forall (fun r => dot r v = Q2Qc 0) (gram n l) -> forall xs y, In (xs, y) l -> dot xs v = Q2Qc 0.
Proof.
  intros Hl Hg xs y Ho. assert (total (squares (map (fun o : observation => dot (fst o) v) l)) = Q2Qc 0) as E.
  { unfold squares. rewrite map_map. rewrite <- (weigh_dot n l Hl (fun o => dot (fst o) v)). rewrite <- (gram_times n l Hl). rewrite dot_comm. apply dot_zero.
    intros z Hz. unfold times_vector in Hz. apply in_map_iff in Hz as (r & <- & Hr). exact (proj1 (Forall_forall _ _) Hg r Hr). }
  apply (squares_zero _ E). apply in_map_iff. exists (xs, y). auto.
Qed.
