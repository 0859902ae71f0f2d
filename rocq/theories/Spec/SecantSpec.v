(** Words for contact angles measured on the points of an interface. *)
From Coq Require Import Reals.
From Verif.Base Require Import QcX QcR.
Local Open Scope list_scope.
(** Of the points of an edge, the lowest one first: [p0] is the lowest and [p], number [k], the first of those nearest to [height] above it. *)
Definition chosen (edge : list (Qc * Qc)) (height : Qc) (k : nat) (p0 p : Qc * Qc) : Prop :=
  nth_error edge 0 = Some p0 /\ nth_error edge k = Some p /\
  (forall q, In q edge -> qabs (snd p - snd p0 - height) <= qabs (snd q - snd p0 - height)) /\
  forall j q, (j < k)%nat -> nth_error edge j = Some q -> qabs (snd p - snd p0 - height) < qabs (snd q - snd p0 - height).
(** The lowest point is first. *)
Definition lowest_first (edge : list (Qc * Qc)) : Prop := exists p0, nth_error edge 0 = Some p0 /\ forall q, In q edge -> snd p0 <= snd q.
(** The edge moved, seen in a mirror, enlarged. *)
Definition shifted (a b : Qc) (e : list (Qc * Qc)) : list (Qc * Qc) := map (fun p => (fst p + a, snd p + b)) e.
Definition mirrored (e : list (Qc * Qc)) : list (Qc * Qc) := map (fun p => (- fst p, snd p)) e.
Definition enlarged (k : Qc) (e : list (Qc * Qc)) : list (Qc * Qc) := map (fun p => (k * fst p, k * snd p)) e.

(** Point of a circular droplet with radius [r] and contact angle [t] on the line y = 0, after an arc [s] from its left foot; the foot is
    at [s = 0], the top at [s = t].  At [s] the droplet's surface has the direction of angle [t - s]. *)
Local Open Scope R_scope.
Definition on_droplet (r t x0 s : R) (p : Qc * Qc) : Prop :=
  QR (fst p) = x0 + r * (sin t - sin (t - s)) /\ QR (snd p) = r * (cos (t - s) - cos t).
