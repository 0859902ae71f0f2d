(** Words of the properties of text tables. *)
From Verif.Base Require Import QcX.
(** [y] has at most [d] decimals and no number of [d] decimals is nearer to [x]. *)
Definition nearest_decimal (d : nat) (x y : Qc) : Prop :=
  let unit := ZQ (10 ^ Z.of_nat d) in
  (exists n, y = ZQ n / unit) /\ forall n, qabs (y - x) <= qabs (ZQ n / unit - x).
