(** Python exceptions as values. *)
From Coq Require Import List.
Inductive exn :=
| KeyErr | ValueErr | IndexErr | TypeErr | ZeroDivErr | NameErr | OSErr
| StopIter | AttrErr | UnboundErr | AssertErr | RuntimeErr | UnicodeErr | SysExit
| OutOfFuel (* the modelled loop did not end within the given number of steps *).

Inductive res (A : Type) := Ok (a : A) | Err (e : exn).
Arguments Ok {A} a.
Arguments Err {A} e.

Definition rbind {A B} (x : res A) (f : A -> res B) : res B :=
  match x with Ok a => f a | Err e => Err e end.
Definition rmap {A B} (f : A -> B) (x : res A) : res B := rbind x (fun a => Ok (f a)).
Definition is_ok {A} (x : res A) : bool := match x with Ok _ => true | Err _ => false end.

Notation "'do' x <- e ; f" := (rbind e (fun x => f)) (at level 200, x pattern, right associativity).

Definition of_option {A} (e : exn) (x : option A) : res A :=
  match x with Some a => Ok a | None => Err e end.

Fixpoint rmapM {A B} (f : A -> res B) (l : list A) : res (list B) :=
  match l with
  | nil => Ok nil
  | cons a l => do b <- f a; do bs <- rmapM f l; Ok (cons b bs)
  end.

Lemma rmapM_ok_map {A B} (f : A -> res B) (g : A -> B) l :
  (forall a, List.In a l -> f a = Ok (g a)) -> rmapM f l = Ok (List.map g l).
Proof.
  induction l as [|a l IH]; simpl; intros H; [reflexivity|].
  rewrite (H a) by auto. simpl. rewrite IH by auto. reflexivity.
Qed.
Lemma rmapM_length {A B} (f : A -> res B) l bs : rmapM f l = Ok bs -> length bs = length l.
Proof.
  revert bs; induction l as [|a l IH]; simpl; intros bs H.
  - injection H as <-. reflexivity.
  - destruct (f a); simpl in H; [|discriminate]. destruct (rmapM f l); simpl in H; [|discriminate].
    injection H as <-. simpl. f_equal. apply IH. reflexivity.
Qed.
Lemma rmapM_Forall2 {A B} (f : A -> res B) l bs :
  rmapM f l = Ok bs -> List.Forall2 (fun a b => f a = Ok b) l bs.
Proof.
  revert bs; induction l as [|a l IH]; simpl; intros bs H.
  - injection H as <-. constructor.
  - destruct (f a) eqn:E; simpl in H; [|discriminate]. destruct (rmapM f l); simpl in H; [|discriminate].
    injection H as <-. constructor; auto.
Qed.
