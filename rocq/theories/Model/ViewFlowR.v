(** Model of the flow magnitudes in /repo/strata/view_flowmap.py. *)
From Coq Require Import Reals.
From Verif.Base Require Import QcX QcR.
From Verif.Model Require Import Bins ContactAngle.
Local Open Scope R_scope.
(** view_flowmap.py:348-367 [add_absolute_flow]: the value of the new field for one record. *)
Definition absolute_flow (b : bin) : R := sqrt (QR (bU b) * QR (bU b) + QR (bV b) * QR (bV b)).
(** view_flowmap.py:370-394 [add_radial_flow]; [numpy.arctan2(0, 0)] is 0. *)
Definition radial_flow (x0 y0 : Qc) (b : bin) : R :=
  let a := atan2 (QR (bY b - y0)) (QR (bX b - x0)) in QR (bU b) * sin a - QR (bV b) * cos a.
