(** Words of the properties of numbers in texts: real numbers. *)
From Coq Require Import Reals.
From Verif.Base Require Import QcX QcR.
Local Open Scope R_scope.
(** [y] has at most [d] decimals and no number of [d] decimals is nearer to [x]. *)
Definition nearest_decimalR (d : nat) (x : R) (y : Qc) : Prop :=
  (exists n, y = ZQ n / ZQ (10 ^ Z.of_nat d))%Qc /\ forall n, Rabs (QR y - x) <= Rabs (IZR n / IZR (10 ^ Z.of_nat d) - x).
(** A number of [d] significant digits: n * 10^k where n has at most [d] digits. *)
Definition has_digits (d : nat) (x : R) : Prop := exists n k, (Z.abs n < 10 ^ Z.of_nat d)%Z /\ x = IZR n * powerRZ 10 k.
(** [y] has [d] significant digits and no such number is nearer to [x]. *)
Definition nearest_significant (d : nat) (x : R) (y : Qc) : Prop :=
  has_digits d (QR y) /\ forall z, has_digits d z -> Rabs (QR y - x) <= Rabs (z - x).
