(** Insertion sort by a boolean total order, as a model of a deterministic sort. *)
From Coq Require Import List Bool Permutation Lia Sorted.
From Verif.Base Require Import QcX.
Import ListNotations.

Section Sort.
Context {A : Type}.
Variable le : A -> A -> bool.

Fixpoint insert (x : A) (l : list A) : list A :=
  match l with
  | [] => [x]
  | y :: l' => if le x y then x :: l else y :: insert x l'
  end.
Definition isort (l : list A) : list A := fold_right insert [] l.

(** Every element is at most every later one. *)
Inductive sorted : list A -> Prop :=
| sorted_nil : sorted []
| sorted_cons x l : (forall y, In y l -> le x y = true) -> sorted l -> sorted (x :: l).

Lemma insert_perm x l : Permutation (x :: l) (insert x l).
Proof.
  induction l as [|y l IH]; simpl; auto.
  destruct (le x y); auto.
  rewrite perm_swap. constructor. exact IH.
Qed.
Lemma isort_perm l : Permutation l (isort l).
Proof.
  induction l as [|x l IH]; simpl; auto.
  rewrite <- insert_perm. constructor. exact IH.
Qed.
Lemma isort_in l x : In x (isort l) <-> In x l.
Proof. split; apply Permutation_in; [symmetry|]; apply isort_perm. Qed.
Lemma isort_length l : length (isort l) = length l.
Proof. symmetry. apply Permutation_length, isort_perm. Qed.

Hypothesis total : forall x y, le x y = true \/ le y x = true.
Hypothesis trans : forall x y z, le x y = true -> le y z = true -> le x z = true.

Lemma insert_sorted x l : sorted l -> sorted (insert x l).
Proof.
  induction 1 as [|y l Hy Hl IH]; simpl.
  - constructor; [intros ? []|constructor].
  - destruct (le x y) eqn:E.
    + constructor; [|constructor; auto]. intros z [<-|Hz]; eauto.
    + constructor; auto. intros z Hz.
      apply (Permutation_in _ (Permutation_sym (insert_perm x l))) in Hz.
      destruct Hz as [<-|Hz]; auto.
      destruct (total x y); congruence.
Qed.
Lemma isort_sorted l : sorted (isort l).
Proof. induction l; simpl; [constructor | apply insert_sorted; auto]. Qed.

Hypothesis antisym : forall x y, le x y = true -> le y x = true -> x = y.
Lemma sorted_perm_eq l : forall m, sorted l -> sorted m -> Permutation l m -> l = m.
Proof.
  induction l as [|x l IH]; intros m Hl Hm P.
  - apply Permutation_nil in P; congruence.
  - destruct m as [|y m]. { symmetry in P; apply Permutation_nil in P; discriminate. }
    inversion Hl; inversion Hm; subst.
    assert (x = y) as ->.
    { assert (In x (y :: m)) as [|Hx] by (apply (Permutation_in _ P); left; auto); auto.
      assert (In y (x :: l)) as [|Hy] by (apply (Permutation_in _ (Permutation_sym P)); left; auto); auto. }
    f_equal. apply IH; auto. eapply Permutation_cons_inv; eauto.
Qed.
Lemma isort_canonical l m : Permutation l m -> isort l = isort m.
Proof.
  intro P. apply sorted_perm_eq; auto using isort_sorted.
  rewrite <- !isort_perm; auto.
Qed.
Lemma isort_id l : sorted l -> isort l = l.
Proof.
  intro H. apply sorted_perm_eq; auto using isort_sorted. symmetry; apply isort_perm.
Qed.
End Sort.

(** Lexicographic order on lists of numbers. *)
Fixpoint lexle (l m : list Qc) : bool :=
  match l, m with
  | [], _ => true
  | _ :: _, [] => false
  | x :: l', y :: m' => if qlt x y then true else if qeq x y then lexle l' m' else false
  end.
Ltac qsplit x y := let E := fresh "E" in destruct (qlt x y) eqn:E; [apply qlt_true in E | apply qlt_false in E].
Lemma qlt_irr x : qlt x x = false. Proof. apply qlt_false. qlra'. Qed.
Lemma lexle_refl l : lexle l l = true.
Proof. induction l as [|x l IH]; simpl; auto. rewrite qeq_refl, IH. destruct (qlt x x); auto. Qed.
Lemma lexle_cons x l y m : lexle (x :: l) (y :: m) = true <-> x < y \/ (x = y /\ lexle l m = true).
Proof.
  simpl. qsplit x y; [tauto|]. destruct (qeq_spec x y); intuition; try discriminate; try qlra.
Qed.
Lemma lexle_total l : forall m, lexle l m = true \/ lexle m l = true.
Proof.
  induction l as [|x l IH]; intros [|y m]; auto; try (simpl; auto; fail).
  rewrite !lexle_cons. destruct (qc_lt_trich x y) as [|[->|]]; auto.
  destruct (IH m); auto.
Qed.
Lemma lexle_trans l : forall m k, lexle l m = true -> lexle m k = true -> lexle l k = true.
Proof.
  induction l as [|x l IH]; intros [|y m] [|z k]; auto; try (simpl; discriminate).
  rewrite !lexle_cons. intros [H|[-> H]] [H'|[-> H']]; auto.
  - left; qlra'.
  - right; eauto.
Qed.
Lemma lexle_antisym l : forall m, lexle l m = true -> lexle m l = true -> l = m.
Proof.
  induction l as [|x l IH]; intros [|y m]; auto; try (simpl; discriminate).
  rewrite !lexle_cons. intros [H|[-> H]] [H'|[E H']]; try subst; try qlra.
  f_equal; auto.
Qed.
