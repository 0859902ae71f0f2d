(** Specification vocabulary for file search and output (no model code here). *)
From Coq Require Import List ZArith String Ascii Decimal DecimalString Permutation.
Import ListNotations.
Local Open Scope Z_scope.

(** [s] is the decimal text of the non-negative number [n], zero padded to
    five digits and not more. *)
Definition five_digit_text (s : string) (n : Z) : Prop :=
  exists u : Decimal.uint,
    NilEmpty.uint_of_string s = Some u /\ Z.of_N (N.of_uint u) = n /\
    (5 <= String.length s)%nat /\
    ((5 < String.length s)%nat -> forall t, s <> String "0" t).

(** The numbers [b, b+1, ...], [n] of them. *)
Fixpoint numbers (b : Z) (n : nat) : list Z :=
  match n with O => [] | S n => b :: numbers (b + 1) n end.

(** [n] is the length of the unbroken run: all [n] numbers from [b] are good
    (exist and are within the range) and the next one is not. *)
Definition run_length (good : Z -> Prop) (b : Z) (n : nat) : Prop :=
  (forall k, 0 <= k < Z.of_nat n -> good (b + k)) /\ ~ good (b + Z.of_nat n).

(** The [k]-th window of [g] elements. *)
Definition window {A} (g k : nat) (l : list A) : list A := firstn g (skipn k l).

(** Every element of [sub] is, with multiplicity, in [l]. *)
Definition sub_multiset {A} (sub l : list A) : Prop :=
  exists extra, Permutation l (sub ++ extra).
