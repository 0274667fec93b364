(** multiple_regress: the results at each point. *)
From Coq Require Import ZArith List Bool Lia QArith_base Qcanon Field.
From Verif Require Import SortSpec IndexModel IndexSpec IndexProofs ArrModel ArrProofs ViewModel ViewSpec ViewProofs FibreProofs
     AxisModel AxisSpec AxisProofs VarOpsModel VarOpsSpec VarOpsProofs NumModel NumProofs ReduceModel ReduceSpec ReduceProofs StatProofs RespondProofs
     UfuncModel UfuncSpec UfuncProofs UfuncView ClimLine RegressModel RegressSpec RegressAxes RegressLine MeansProofs MultiModel MultiSpec MultiLeast MultiSums.
From Verif Require UfuncProps MeansPairs.
Import ListNotations.
Open Scope Z_scope.
Open Scope list_scope.

(** ** at one point *)
Definition moments_of (n : nat) (l : list observation) : moments :=
  Moments (Fin (total (map snd l))) (Fin (total (squares (map snd l)))) (map Fin (response n l)) (map (map Fin) (gram n l)).
Lemma np_dot_fin : forall a b, np_dot (map Fin a) (map Fin b) = Fin (dot a b).
Proof.
  unfold np_dot. induction a as [|x a IH]; intros [|y b]; try reflexivity. rewrite dot_cons. cbn [map combine]. unfold np_sum in *. cbn [fold_right]. rewrite IH. reflexivity.
Qed.
Lemma nth_map_fin l i : (i < length l)%nat -> nth i (map Fin l) NaN = Fin (nth i l (Q2Qc 0)).
Proof. intros H. erewrite nth_indep by (rewrite map_length; exact H). apply map_nth. Qed.
Lemma combine_seq_map {A B} (f : nat -> A -> B) (d : A) (l : list A) : map (fun '(i, x) => f i x) (combine (seq 0 (length l)) l) = map (fun i => f i (nth i l d)) (seq 0 (length l)).
Proof.
  assert (forall s, map (fun '(i, x) => f i x) (combine (seq s (length l)) l) = map (fun i => f i (nth (i - s) l d)) (seq s (length l))) as H.
  { induction l as [|x l IH]; intros s; [reflexivity|]. cbn [length seq combine map]. rewrite IH. f_equal; [now rewrite Nat.sub_diag|]. apply map_ext_in. intros i Hi. apply in_seq in Hi.
    replace (i - s)%nat with (S (i - S s)) by lia. reflexivity. }
  rewrite H. apply map_ext. intros i. now rewrite Nat.sub_0_r.
Qed.
Lemma combine_map2 {A B C} (f : A -> B -> C) (da : A) (db : B) : forall (a : list A) (b : list B), length a = length b -> map (fun '(x, y) => f x y) (combine a b) = map (fun i => f (nth i a da) (nth i b db)) (seq 0 (length a)).
Proof.
  induction a as [|x a IH]; intros [|y b] H; try discriminate; [reflexivity|]. cbn [combine map length seq nth]. f_equal. rewrite IH by (cbn in H; lia). rewrite <- seq_shift, map_map. reflexivity.
Qed.
Section Point.
Context (sqrt : num -> num) (cdf : num -> num -> num).
Lemma mfit_spec n l w N_fac : l <> [] -> (forall xs y, In (xs, y) l -> length xs = n) -> inverse_of n (gram n l) w ->
  multi_result sqrt cdf n N_fac l (mfit_of sqrt cdf (zlen l) N_fac (moments_of n l) (map (map Fin) w)).
Proof.
  intros Hne Hl Hw. exists (solution n l w), w. split; [now apply solution_best|]. split; [exact (length_solution n l w Hw)|]. split; [exact Hw|]. cbv zeta.
  unfold mfit_of, moments_of. cbn [g_y g_yy g_xy g_xx m_beta m_se m_r2 m_covb m_sb m_p].
  set (ne := match N_fac with None => zlen l | Some f => zlen l / f end). change (match N_fac with Some k => zlen l / k | None => zlen l end) with ne.
  destruct Hw as [[Hw1 Hw2] Hw3].
  assert (map (fun row => np_dot (map Fin (response n l)) row) (map (map Fin) w) = map Fin (solution n l w)) as Eb.
  { rewrite map_map. unfold solution, times_vector. rewrite map_map. apply map_ext. intros r. rewrite np_dot_fin. f_equal. apply dot_comm. }
  rewrite Eb. rewrite np_dot_fin.
  assert (sub (Fin (total (squares (map snd l)))) (Fin (dot (response n l) (solution n l w))) = Fin (residual l (solution n l w))) as Er.
  { rewrite sub_fin. f_equal. rewrite <- (rest_is n l Hl w (conj (conj Hw1 Hw2) Hw3)). f_equal. unfold squares. now rewrite map_map. }
  rewrite Er. split; [reflexivity|]. split; [reflexivity|].
  set (e := residual l (solution n l w)).
  assert (map (fun '(i, row) => sqrt (div (mul (Fin e) (nth i row NaN)) (num_of_Z ne))) (combine (seq 0 (length (map (map Fin) w))) (map (map Fin) w)) =
          map (fun i => sqrt (div (Fin (e * nth i (nth i w []) (Q2Qc 0))%Qc) (num_of_Z ne))) (seq 0 n)) as Es.
  { rewrite (combine_seq_map (fun i row => sqrt (div (mul (Fin e) (nth i row NaN)) (num_of_Z ne))) []). rewrite map_length, Hw1. apply map_ext_in. intros i Hi. apply in_seq in Hi. do 2 f_equal.
    change (@nil num) with (map Fin []) at 1. rewrite map_nth. rewrite nth_map_fin; [reflexivity|]. rewrite (proj1 (Forall_forall _ _) Hw2 (nth i w [])) by (apply nth_In; lia). lia. }
  split; [|split; [|split; [exact Es|]]].
  - do 2 f_equal. cbn [mul]. assert (length (map snd l) <> 0%nat) as _ by (rewrite map_length; destruct l; [congruence|discriminate]).
    rewrite div_fin'. 2: { destruct l; [congruence|]. unfold zlen. cbn [length]. lia. }
    rewrite sub_fin. f_equal. rewrite spread_eq by (intros E; apply map_eq_nil in E; contradiction). f_equal. f_equal. unfold count, zlen. now rewrite map_length.
  - rewrite map_map. apply map_ext. intros r. rewrite map_map. reflexivity.
  - rewrite Es. rewrite map_length, Hw1. pose proof (length_solution n l w (conj (conj Hw1 Hw2) Hw3)) as Lb.
    rewrite (combine_map2 (fun b s => mul (num_of_Z 2) (sub (num_of_Z 1) (cdf (num_abs (div b s)) (num_of_Z (ne - Z.of_nat n))))) NaN NaN) by (rewrite !map_length, seq_length; exact Lb).
    rewrite map_length, Lb. apply map_ext_in. intros i Hi. apply in_seq in Hi. rewrite nth_map_fin by lia. reflexivity.
Qed.
End Point.

(** ** the sums *)
Definition fin (v : num) : Qc := match v with Fin q => q | _ => Q2Qc 0 end.
Definition rows (EXs : list (list Z -> num)) (EY : list Z -> num) (over : list axis) (k : list Z) : list observation :=
  map (fun r => (map (fun E => fin (E (k ++ r))) EXs, fin (EY (k ++ r)))) (positions (map axis_len over)).
Lemma np_sum_total {A} (f : A -> num) (g : A -> Qc) l : (forall x, In x l -> f x = Fin (g x)) -> np_sum (map f l) = Fin (total (map g l)).
Proof.
  intros H. rewrite (map_ext_in f (fun x => Fin (g x)) l H), <- (map_map g Fin). apply np_sum_fin.
Qed.
Section Sums.
Context (env : axenv) (Henv : env_ok env) (MAX : Z) (HMAX : 1 <= MAX) (junk : list Z -> num) (outer over : list axis).
Notation I := (outer ++ over).
Context (Hsep : separate I) (Hg : Forall good_axis I) (Hp : forall a, In a I -> 0 < axis_len a)
  (Xs : list (var axis num)) (DXs : list (list Z -> num)) (Y : var axis num) (DY : list Z -> num) (EXs : list (list Z -> num)) (EY : list Z -> num)
  (HX : Forall2 (fun '(x, D) E => placed env outer over x D E) (combine Xs DXs) EXs) (HlX : length Xs = length DXs) (HY : placed env outer over Y DY EY)
  (Hfin : forall E q, In E (EY :: EXs) -> position (map axis_len I) q -> exists v, E q = Fin v).
Notation n := (length Xs).
Lemma length_EXs : length EXs = n.
Proof. rewrite <- (Forall2_len _ _ _ HX), combine_length. lia. Qed.
Lemma inside k r : position (map axis_len outer) k -> In r (positions (map axis_len over)) -> position (map axis_len I) (k ++ r).
Proof. intros Hk Hr. rewrite map_app. apply Forall2_app; [exact Hk|]. apply in_pos, Hr. Qed.
Lemma there E k r : In E (EY :: EXs) -> position (map axis_len outer) k -> In r (positions (map axis_len over)) -> E (k ++ r) = Fin (fin (E (k ++ r))).
Proof. intros HE Hk Hr. destruct (Hfin E (k ++ r) HE (inside k r Hk Hr)) as (v & ->). reflexivity. Qed.
Lemma sum_spec f h : (forall c data, Forall2 selection I c -> Forall2 (good_block outer c) (EXs ++ [EY]) data -> exists a, f data = Some a /\ good_block outer c h a) ->
  exists r, multi_sum env junk MAX (Xs ++ [Y]) outer over f = Some r /\ shape r = map axis_len outer /\
    forall k, position (map axis_len outer) k -> val r k = np_sum (map (fun r => h (k ++ r)) (positions (map axis_len over))).
Proof.
  apply (multi_sum_spec env Henv MAX HMAX junk outer over Hsep Hg Hp (Xs ++ [Y]) (DXs ++ [DY]) (EXs ++ [EY])).
  - rewrite combine_app by exact HlX. apply Forall2_app; [exact HX|]. constructor; [exact HY|constructor].
  - rewrite !app_length. cbn. lia.
Qed.
Definition expr (i : nat) : list Z -> num := nth i (EXs ++ [EY]) (fun _ => NaN).
Lemma expr_nth i : (i <= n)%nat -> nth_error (EXs ++ [EY]) i = Some (expr i).
Proof. intros Hi. unfold expr. apply nth_error_nth'. rewrite app_length, length_EXs. cbn. lia. Qed.
Lemma expr_in i : (i <= n)%nat -> In (expr i) (EY :: EXs).
Proof. intros Hi. pose proof (nth_error_In _ _ (expr_nth i Hi)) as H. apply in_app_iff in H as [H|[H|[]]]; [now right|now left]. Qed.
Lemma expr_Y : expr n = EY.
Proof. unfold expr. rewrite app_nth2 by (rewrite length_EXs; lia). rewrite length_EXs, Nat.sub_diag. reflexivity. Qed.
Lemma expr_X i k r : (i < n)%nat -> fin (expr i (k ++ r)) = nth i (map (fun E => fin (E (k ++ r))) EXs) (Q2Qc 0).
Proof.
  intros Hi. unfold expr. rewrite app_nth1 by (rewrite length_EXs; lia). erewrite nth_indep with (l := map _ EXs) by (rewrite map_length, length_EXs; exact Hi).
  rewrite (map_nth (fun E => fin (E (k ++ r))) EXs (fun _ => NaN)). reflexivity.
Qed.
Lemma product_spec i j : (i <= n)%nat -> (j <= n)%nat -> exists r, multi_sum env junk MAX (Xs ++ [Y]) outer over (product_of i j) = Some r /\ shape r = map axis_len outer /\
    forall k, position (map axis_len outer) k -> val r k = Fin (total (map (fun r => fin (expr i (k ++ r)) * fin (expr j (k ++ r)))%Qc (positions (map axis_len over)))).
Proof.
  intros Hi Hj. destruct (sum_spec (product_of i j) (fun q => mul (expr i q) (expr j q))) as (r & Er & Sr & Vr).
  - intros c data Hc Hd. exact (product_block outer c _ data i j _ _ Hd (expr_nth i Hi) (expr_nth j Hj)).
  - exists r. split; [exact Er|]. split; [exact Sr|]. intros k Hk. rewrite (Vr k Hk). apply np_sum_total. intros q Hq. rewrite (there _ k q (expr_in i Hi) Hk Hq), (there _ k q (expr_in j Hj) Hk Hq) at 1. reflexivity.
Qed.
Lemma list_spec (m : nat) (f : nat -> list (arr num) -> option (arr num)) (val_at : nat -> list Z -> num) :
  (forall i, (i < m)%nat -> exists r, multi_sum env junk MAX (Xs ++ [Y]) outer over (f i) = Some r /\ shape r = map axis_len outer /\ forall k, position (map axis_len outer) k -> val r k = val_at i k) ->
  exists rs, sequence (map (fun i => multi_sum env junk MAX (Xs ++ [Y]) outer over (f i)) (seq 0 m)) = Some rs /\
    forall k, position (map axis_len outer) k -> map (fun a => val a k) rs = map (fun i => val_at i k) (seq 0 m).
Proof.
  intros H. assert (forall l, (forall i, In i l -> (i < m)%nat) -> exists rs, sequence (map (fun i => multi_sum env junk MAX (Xs ++ [Y]) outer over (f i)) l) = Some rs /\
    forall k, position (map axis_len outer) k -> map (fun a => val a k) rs = map (fun i => val_at i k) l) as K.
  { induction l as [|i l IH]; intros Hl; [exists []; split; reflexivity|]. destruct (H i) as (r & Er & _ & Vr); [apply Hl; now left|]. destruct IH as (rs & Ers & Vrs); [intros j Hj; apply Hl; now right|].
    exists (r :: rs). cbn [map sequence]. rewrite Er, Ers. split; [reflexivity|]. intros k Hk. cbn [map]. now rewrite (Vr k Hk), (Vrs k Hk). }
  apply K. intros i Hi. apply in_seq in Hi. lia.
Qed.
Lemma matrix_spec (m : nat) (f : nat -> nat -> list (arr num) -> option (arr num)) (val_at : nat -> nat -> list Z -> num) :
  (forall i j, (i < m)%nat -> (j < m)%nat -> exists r, multi_sum env junk MAX (Xs ++ [Y]) outer over (f i j) = Some r /\ shape r = map axis_len outer /\ forall k, position (map axis_len outer) k -> val r k = val_at i j k) ->
  exists rs, sequence (map (fun i => sequence (map (fun j => multi_sum env junk MAX (Xs ++ [Y]) outer over (f i j)) (seq 0 m))) (seq 0 m)) = Some rs /\
    forall k, position (map axis_len outer) k -> map (map (fun a => val a k)) rs = map (fun i => map (fun j => val_at i j k) (seq 0 m)) (seq 0 m).
Proof.
  intros H. assert (forall l, (forall i, In i l -> (i < m)%nat) -> exists rs, sequence (map (fun i => sequence (map (fun j => multi_sum env junk MAX (Xs ++ [Y]) outer over (f i j)) (seq 0 m))) l) = Some rs /\
    forall k, position (map axis_len outer) k -> map (map (fun a => val a k)) rs = map (fun i => map (fun j => val_at i j k) (seq 0 m)) l) as K.
  { induction l as [|i l IH]; intros Hl; [exists []; split; reflexivity|]. destruct (list_spec m (f i) (val_at i)) as (r & Er & Vr); [intros j Hj; apply H; [apply Hl; now left|exact Hj]|].
    destruct IH as (rs & Ers & Vrs); [intros j Hj; apply Hl; now right|]. exists (r :: rs). cbn [map sequence]. rewrite Er, Ers. split; [reflexivity|]. intros k Hk. cbn [map]. now rewrite (Vr k Hk), (Vrs k Hk). }
  apply K. intros i Hi. apply in_seq in Hi. lia.
Qed.
Theorem multi_sums_spec : exists s, multi_sums env junk MAX Xs Y outer over = Some s /\ shape s = map axis_len outer /\
  forall k, position (map axis_len outer) k -> val s k = moments_of n (rows EXs EY over k).
Proof.
  unfold multi_sums.
  destruct (sum_spec (alone n) (expr n)) as (y & Ey & Sy & Vy). { intros c data Hc Hd. exact (alone_block outer c _ data n _ Hd (expr_nth n (Nat.le_refl n))). }
  destruct (product_spec n n (Nat.le_refl n) (Nat.le_refl n)) as (yy & Eyy & Syy & Vyy).
  destruct (list_spec n (fun i => product_of i n) (fun i k => Fin (total (map (fun r => fin (expr i (k ++ r)) * fin (expr n (k ++ r)))%Qc (positions (map axis_len over)))))) as (xy & Exy & Vxy).
  { intros i Hi. apply product_spec; lia. }
  destruct (matrix_spec n (fun i j => product_of (Nat.max i j) (Nat.min i j)) (fun i j k => Fin (total (map (fun r => fin (expr (Nat.max i j) (k ++ r)) * fin (expr (Nat.min i j) (k ++ r)))%Qc (positions (map axis_len over)))))) as (xx & Exx & Vxx).
  { intros i j Hi Hj. apply product_spec; lia. }
  rewrite Ey, Eyy, Exy, Exx. eexists. split; [reflexivity|]. split; [reflexivity|]. intros k Hk. cbn [val]. rewrite (Vy k Hk), (Vyy k Hk), (Vxy k Hk), (Vxx k Hk). unfold moments_of, rows. rewrite expr_Y. f_equal.
  - rewrite map_map. cbn [snd]. apply np_sum_total. intros r Hr. apply there; [now left|exact Hk|exact Hr].
  - unfold squares. rewrite !map_map. reflexivity.
  - unfold response, weigh. rewrite map_map. apply map_ext_in. intros i Hi. apply in_seq in Hi. f_equal. rewrite map_map. cbn [fst snd]. apply total_map_ext. intros r Hr. rewrite expr_X by lia. reflexivity.
  - unfold gram. rewrite map_map. apply map_ext_in. intros i Hi. apply in_seq in Hi. rewrite map_map. apply map_ext_in. intros j Hj. apply in_seq in Hj. f_equal. rewrite map_map. apply total_map_ext. intros r Hr.
    rewrite !expr_X by lia. destruct (Nat.le_ge_cases i j) as [L|L]; [rewrite Nat.max_r, Nat.min_l by exact L; ring|rewrite Nat.max_l, Nat.min_r by exact L; reflexivity].
Qed.
Lemma rows_length k xs y : In (xs, y) (rows EXs EY over k) -> length xs = n.
Proof. intros H. apply in_map_iff in H as (r & E & _). injection E as <- _. rewrite map_length. apply length_EXs. Qed.
End Sums.
