(** Model of the angles in /repo/droplets/sample.py: sample_flow_angle and sample_per_angle_from. *)
From Coq Require Import Reals.
From Verif.Base Require Import QcX QcR Res Np.
From Verif.Model Require Import Bins Flow Sample ContactAngle.
Local Open Scope R_scope.
Local Open Scope list_scope.

(** sample.py:208-262 [sample_flow_angle] with mean=False: one angle for each bin ([arctan2(0, 0)] is 0). *)
Definition flow_angles (data : list bin) : list R := map (fun b => degrees (atan2 (QR (bV b)) (QR (bU b)))) data.
(** The same with mean=True: the weighted flow is summed. *)
Definition mean_flow_angle (data : list bin) (w : bin -> Qc) : R :=
  degrees (atan2 (QR (qsum (map (fun b => bV b * w b)%Qc data))) (QR (qsum (map (fun b => bU b * w b)%Qc data)))).
(** The number of sample_average.py:204-205 for a [sampled] angle. *)
Definition angle_of (s : sampled) : option R := match s with AngleOf u v => Some (degrees (atan2 (QR v) (QR u))) | _ => None end.

(** sample.py:60-69 [sample_per_angle_from]: distance and angle from the origin.  [np.sign(dy) * np.arccos(dx / dr)] in degrees,
    modulo 360 (the result is between -180 and 180); at the origin itself 0/0 is nan ([None]), for which
    all comparisons are false. *)
Definition radius (dx dy : Qc) : R := sqrt (QR dx * QR dx + QR dy * QR dy).
Definition mod360 (x : R) : R := if Rlt_dec x 0 then x + 360 else x.
Definition sign (q : Qc) : R := if qlt 0 q then 1 else if qlt q 0 then -1 else 0.
Definition bin_degrees (dx dy : Qc) : option R :=
  if (qeq dx 0 && qeq dy 0)%bool then None else Some (mod360 (degrees (sign dy * acos (QR dx / radius dx dy)))).

Definition dec {A B} (d : {A} + {B}) : bool := if d then true else false.
(** First index of the smallest distance: [np.abs(out_angles - angle).argmin()], sample.py:89. *)
Fixpoint nearest (out : list R) (x : R) : nat * R :=
  match out with
  | [] => (0%nat, 0)
  | a :: [] => (0%nat, Rabs (a - x))
  | a :: out' => let (k, d) := nearest out' x in if Rle_dec (Rabs (a - x)) d then (0%nat, Rabs (a - x)) else (S k, d)
  end.
(** Options; [rmax] None is infinity. *)
Record aopts := mkA { amin : Qc; amax : Qc; rmin : Qc; rmax : option Qc; size : Qc }.
(** sample.py:52-54: [np.arange(amin, amax + size, size)]. *)
Definition lo_angle (o : aopts) : Qc := qmax 0%Qc (amin o).
Definition hi_angle (o : aopts) : Qc := qmin (ZQ 360 - size o)%Qc (amax o).
Definition out_angles (o : aopts) : list Qc :=
  map (fun k => (lo_angle o + NQ k * size o)%Qc) (seq 0 (Z.to_nat (qceil ((hi_angle o + size o - lo_angle o) / size o)%Qc))).
(** sample.py:60-73: the angle of a bin which is within the limits. *)
Definition limited_angle (o : aopts) (origin : Qc * Qc) (b : bin) : option R :=
  let dx := (bX b - fst origin)%Qc in let dy := (bY b - snd origin)%Qc in
  if (dec (Rle_dec (QR (rmin o)) (radius dx dy)) && match rmax o with Some r => dec (Rle_dec (radius dx dy) (QR r)) | None => true end)%bool then
    match bin_degrees dx dy with
    | Some a => if (dec (Rle_dec (QR (lo_angle o)) a) && dec (Rle_dec a (QR (hi_angle o))))%bool then Some a else None
    | None => None
    end
  else None.
(** sample.py:85-91: the number of the interval a bin is added to. *)
Definition interval_of (o : aopts) (origin : Qc * Qc) (b : bin) : option nat :=
  match limited_angle o origin b with
  | Some a => Some (fst (nearest (map QR (out_angles o)) (a - QR (size o) / 2 + QR (Q2Qc (1 # 1000000)))))
  | None => None
  end.
(** sample.py:100-106: the average of an interval, or 0. *)
Definition average_or_0 (f w : bin -> Qc) (bs : list bin) : Qc :=
  match bs with
  | [] => 0%Qc
  | _ => if qlt 0 (qsum (map w bs)) then (qsum (map (fun b => f b * w b)%Qc bs) / qsum (map w bs))%Qc else 0%Qc
  end.
(** sample.py:6-108 [sample_per_angle_from] for a positive [size] (for others numpy raises or no angle is
    sampled).  [w] is 1 without weight. *)
Definition sample_per_angle_from (data : list bin) (origin : Qc * Qc) (f w : bin -> Qc) (o : aopts) : list (Qc * Qc) :=
  map (fun p => (snd p, average_or_0 f w (filter (fun b => match interval_of o origin b with Some k => Nat.eqb k (fst p) | None => false end) data)))
      (combine (seq 0 (length (out_angles o))) (out_angles o)).
