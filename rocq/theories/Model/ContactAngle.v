(** Model of the angle in /repo/droplets/interface.py get_contact_angle. *)
From Coq Require Import Reals.
From Verif.Base Require Import QcX QcR Res.
From Verif.Model Require Import Bins Flow Interface ContactLine.
Local Open Scope R_scope.

(** [np.arctan2] (without signed zeros: [atan2 0 x] is PI for negative x). *)
Definition atan2 (y x : R) : R :=
  if Rlt_dec 0 x then atan (y / x)
  else if Rlt_dec x 0 then (if Rle_dec 0 y then atan (y / x) + PI else atan (y / x) - PI)
  else if Rlt_dec 0 y then PI / 2 else if Rlt_dec y 0 then - (PI / 2) else 0.
(** [np.degrees]. *)
Definition degrees (x : R) : R := x * 180 / PI.
(** interface.py:62-69 [get_angles]. *)
Definition angles (t : Qc * Qc * Qc) : R * R :=
  let '(dy, dl, dr) := t in (degrees (atan2 (QR dy) (QR dl)), degrees (atan2 (QR dy) (QR dr))).
(** interface.py:11-95 [get_contact_angle]. *)
Definition get_contact_angle (V : bin -> Qc) (data : list bin) (fi : finfo) (o : iopts) (height : Qc) (floor : option Qc) : res (option (R * R)) :=
  rmap (option_map angles) (contact_triangle V data fi o height floor).
