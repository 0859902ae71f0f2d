(** General list facts. *)
From Coq Require Import List Lia Permutation Bool.
Import ListNotations.

(** *** Lists *)
Lemma Forall2_nth {A B} (R : A -> B -> Prop) l m : Forall2 R l m <->
  length l = length m /\ forall i a b, nth_error l i = Some a -> nth_error m i = Some b -> R a b.
Proof.
  split.
  - induction 1 as [|a b l m H H' [IH1 IH2]]; [split; [reflexivity|]; intros [|i]; discriminate|].
    split; [simpl; congruence|]. intros [|i] x y; simpl; [congruence|apply IH2].
  - intros [L H]. revert m L H. induction l as [|a l IH]; intros [|b m] L H; try discriminate; constructor.
    + apply (H 0%nat); reflexivity.
    + apply IH; [simpl in L; congruence|]. intros i. apply (H (S i)).
Qed.
Lemma Forall2_sym_impl {A B} (R : A -> B -> Prop) (S : B -> A -> Prop) l m :
  (forall a b, R a b -> S b a) -> Forall2 R l m -> Forall2 S m l.
Proof. intros H; induction 1; constructor; auto. Qed.
Lemma nth_error_seq a n i : (i < n)%nat -> nth_error (seq a n) i = Some (a + i)%nat.
Proof.
  revert a i; induction n as [|n IH]; intros a [|i] H; simpl; try lia.
  - f_equal. lia.
  - rewrite IH by lia. f_equal. lia.
Qed.
Lemma nth_error_map_seq {A} (f : nat -> A) n i : (i < n)%nat -> nth_error (map f (seq 0 n)) i = Some (f i).
Proof. intros H. erewrite map_nth_error; [|apply nth_error_seq; exact H]. reflexivity. Qed.
Lemma map_nth_seq {A B} (f : A -> B) l d : map (fun i => f (nth i l d)) (seq 0 (length l)) = map f l.
Proof.
  induction l as [|x l IH]; [reflexivity|]. cbn [length seq map nth]. f_equal.
  rewrite <- seq_shift, map_map. exact IH.
Qed.

Lemma Forall2_map {A B} (f : A -> B) (g : A -> B) (R : B -> B -> Prop) l m :
  Forall2 R (map f l) (map g m) <-> Forall2 (fun a b => R (f a) (g b)) l m.
Proof.
  revert m; induction l as [|a l IH]; intros [|b m]; simpl; split; intros H; inversion H; subst; constructor; auto; apply IH; auto.
Qed.
Lemma Forall2_and {A B} (R S : A -> B -> Prop) l m :
  Forall2 (fun a b => R a b /\ S a b) l m <-> Forall2 R l m /\ Forall2 S l m.
Proof.
  split.
  - induction 1 as [|a b l m [H1 H2] H [IH1 IH2]]; split; constructor; auto.
  - intros [H1 H2]. revert H2. induction H1 as [|a b l m H H' IH]; intros K; inversion K; subst; constructor; auto.
Qed.

Lemma Forall2_length {A B} (R : A -> B -> Prop) l m : Forall2 R l m -> length l = length m.
Proof. induction 1; simpl; congruence. Qed.
Arguments Forall2_length {A B R l m} _.
Lemma Forall2_impl {A B} (P Q : A -> B -> Prop) l l' : (forall a b, P a b -> Q a b) -> Forall2 P l l' -> Forall2 Q l l'.
Proof. intros H. induction 1; constructor; auto. Qed.
