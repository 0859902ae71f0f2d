(** Angles on the full circle. *)
From Coq Require Import Reals.
Local Open Scope R_scope.
(** [a] degrees is an angle of the direction (x, y). *)
Definition direction (x y a : R) : Prop := exists r, 0 < r /\ x = r * cos (a * PI / 180) /\ y = r * sin (a * PI / 180).
