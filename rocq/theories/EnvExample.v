(** An argsort that satisfies the hypotheses on axes (used in the examples). *)
From Coq Require Import ZArith List Bool Lia QArith_base Permutation.
From Verif Require Import SortSpec TimeSearchSpec IndexSpec IndexProofs AxisModel AxisSpec.
Import ListNotations.
Open Scope Z_scope.

Fixpoint ins (key : Z -> Q) (i : Z) (l : list Z) : list Z :=
  match l with
  | [] => [i]
  | j :: t => if Qle_bool (key i) (key j) then i :: l else j :: ins key i t
  end.
Definition isort (l : list Q) : list Z :=
  fold_right (ins (fun i => nth (Z.to_nat i) l 0%Q)) [] (map Z.of_nat (seq 0 (length l))).
Definition env0 : axenv := AxEnv isort (fun _ => (1 # 100000)%Q).

Lemma ins_perm key i l : Permutation (ins key i l) (i :: l).
Proof.
  induction l as [|j l IH]; cbn; [reflexivity|]. destruct (Qle_bool _ _); [reflexivity|].
  eapply Permutation_trans; [apply perm_skip, IH|apply perm_swap].
Qed.
Inductive ordered (key : Z -> Q) : list Z -> Prop :=
| o_nil : ordered key []
| o_cons i l : (forall j, In j l -> key i <= key j)%Q -> ordered key l -> ordered key (i :: l).
Lemma ins_ordered key i l : ordered key l -> ordered key (ins key i l).
Proof.
  induction 1 as [|j l Hj Hl IH]; cbn; [constructor; [intros ? []|constructor]|].
  destruct (Qle_bool (key i) (key j)) eqn:E.
  - apply Qle_bool_iff in E. constructor; [|constructor; assumption]. intros k [<-|Hk]; [exact E|]. eapply Qle_trans; [exact E|auto].
  - assert (key j <= key i)%Q as E'.
    { destruct (Qlt_le_dec (key j) (key i)) as [H|H]; [now apply Qlt_le_weak|]. apply Qle_bool_iff in H. congruence. }
    constructor; [|exact IH]. intros k Hk. apply (Permutation_in _ (ins_perm key i l)) in Hk as [<-|Hk]; auto.
Qed.
Lemma ordered_elem key l : ordered key l -> forall i j p q, elem l i p -> elem l j q -> i < j -> (key p <= key q)%Q.
Proof.
  induction 1 as [|a l Ha Hl IH]; intros i j p q Hi Hj Hij; [now apply elem_nil in Hi|].
  apply elem_cons in Hi as [[-> ->]|[Hi0 Hi]]; apply elem_cons in Hj as [[-> ->]|[Hj0 Hj]]; try lia.
  - apply Ha. eapply elem_In, Hj.
  - eapply IH; [exact Hi|exact Hj|lia].
Qed.

Lemma env0_ok : env_ok env0.
Proof.
  split; [|intros l; cbv; discriminate]. intros l. cbn [argsort env0]. unfold isort.
  set (key := fun i => nth (Z.to_nat i) l 0%Q).
  assert (forall ix, Permutation (fold_right (ins key) [] ix) ix /\ ordered key (fold_right (ins key) [] ix)) as H.
  { induction ix as [|i ix [I1 I2]]; [split; constructor|]. cbn [fold_right]. split; [|now apply ins_ordered].
    eapply Permutation_trans; [apply ins_perm|now apply perm_skip]. }
  destruct (H (map Z.of_nat (seq 0 (length l)))) as [H1 H2]. split; [exact H1|].
  intros i j p q x y Hi Hj Hlt Hx Hy. pose proof (ordered_elem _ _ H2 _ _ _ _ Hi Hj Hlt) as K. unfold key in K.
  destruct Hx as [_ Hx], Hy as [_ Hy]. now rewrite (nth_error_nth _ _ _ Hx), (nth_error_nth _ _ _ Hy) in K.
Qed.
