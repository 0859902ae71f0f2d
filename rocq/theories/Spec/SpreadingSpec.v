(** Specification vocabulary for periodic trajectories. *)
From Verif.Base Require Import QcX.

(** [x] is the position in the box [0, box) of the absolute position [X]. *)
Definition wraps (box x X : Qc) : Prop := 0 <= x /\ x < box /\ exists k : Z, X = x + ZQ k * box.

(** The number of the box in which [X] is: [X] is in [k box, (k+1) box). *)
Definition in_box (box X : Qc) (k : Z) : Prop := ZQ k * box <= X /\ X < ZQ k * box + box.

(** A trajectory of the absolute positions (left, right) of the edges of a
    droplet narrower than the box, which move less than half a box per step. *)
Definition valid_pos (box : Qc) (p : Qc * Qc) : Prop := fst p <= snd p /\ snd p - fst p < box.
Definition small_step (box : Qc) (p q : Qc * Qc) : Prop :=
  qabs (fst q - fst p) + qabs (fst q - fst p) < box /\ qabs (snd q - snd p) + qabs (snd q - snd p) < box.
Fixpoint steps (R : Qc * Qc -> Qc * Qc -> Prop) (traj : list (Qc * Qc)) : Prop :=
  match traj with
  | p :: ((q :: _) as rest) => R p q /\ steps R rest
  | _ => True
  end.
Definition trajectory (box : Qc) (traj : list (Qc * Qc)) : Prop :=
  Forall (valid_pos box) traj /\ steps (small_step box) traj.

(** The two edges do not both change box in the step from [p] to [q]. *)
Definition one_crosses (box : Qc) (p q : Qc * Qc) : Prop :=
  (exists k, in_box box (fst p) k /\ in_box box (fst q) k) \/ (exists k, in_box box (snd p) k /\ in_box box (snd q) k).
