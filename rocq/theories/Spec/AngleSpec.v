(** The angle of a direction. *)
From Coq Require Import Reals.
Local Open Scope R_scope.
(** [a], in degrees between 0 and 180, is the angle between the positive x axis and the direction (x, y). *)
Definition direction_angle (x y a : R) : Prop :=
  0 <= a <= 180 /\ exists r, 0 < r /\ x = r * cos (a * PI / 180) /\ y = r * sin (a * PI / 180).
