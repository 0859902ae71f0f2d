(** Specification vocabulary for the collected interfaces: what the layers of a droplet are,
    and what the array for a frame should hold. *)
From Verif.Base Require Import QcX.
From Verif.Spec Require Import SpreadingSpec.

(** The true state of a frame: the number of its lowest layer and the absolute positions
    (left, right) of the interface in this and the following layers. *)
Definition truth := (Z * list (Qc * Qc))%type.

(** The number nearest to [z] among the layers [b .. b + n - 1]. *)
Definition nearest (b : Z) (n : nat) (z : Z) : Z := Z.max b (Z.min z (b + Z.of_nat n - 1)).

(** From one frame to the next: every layer, compared to the nearest layer of the frame
    before, moves less than half a box and its edges do not both change box. *)
Definition frame_step (box : Qc) (f g : truth) : Prop :=
  forall i p, nth_error (snd g) i = Some p -> forall q,
    nth_error (snd f) (Z.to_nat (nearest (fst f) (length (snd f)) (fst g + Z.of_nat i) - fst f)) = Some q ->
    small_step box q p /\ one_crosses box q p.
Fixpoint frame_steps (box : Qc) (fs : list truth) : Prop :=
  match fs with
  | f :: ((g :: _) as rest) => frame_step box f g /\ frame_steps box rest
  | _ => True
  end.

(** The layers (y, left, right) show the truth [f], as positions in the box, on layers [h] apart. *)
Definition shows_layers (box y0 h : Qc) (layers : list (Qc * Qc * Qc)) (f : truth) : Prop :=
  length layers = length (snd f) /\
  forall i y l r, nth_error layers i = Some (y, l, r) ->
    y = y0 + ZQ (fst f + Z.of_nat i) * h /\
    exists p, nth_error (snd f) i = Some p /\ wraps box l (fst p) /\ wraps box r (snd p).

(** The array for a frame: up the left edge and down the right one, [c] boxes from the truth,
    y measured from the lowest layer. *)
Definition closed_curve (h : Qc) (ps : list (Qc * Qc)) : list (Qc * Qc) :=
  map (fun i => (fst (nth i ps (0, 0)), ZQ (Z.of_nat i) * h)) (seq 0 (length ps)) ++
  rev (map (fun i => (snd (nth i ps (0, 0)), ZQ (Z.of_nat i) * h)) (seq 0 (length ps))).
Definition moved (d : Qc) (ps : list (Qc * Qc)) : list (Qc * Qc) := map (fun p => (fst p + d, snd p + d)) ps.
