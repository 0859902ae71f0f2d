(** Words of the properties of spreading curves: lists of (time, radius). *)
From Verif.Base Require Import QcX.
Local Open Scope list_scope.

(** Point number [k], at time [t], is the closest to radius [r], and the first of the closest. *)
Definition closest_at (r : Qc) (s : list (Qc * Qc)) (k : nat) (t : Qc) : Prop :=
  exists x, nth_error s k = Some (t, x) /\
    forall j t' x', nth_error s j = Some (t', x') -> qabs (x - r) <= qabs (x' - r) /\ ((j < k)%nat -> qabs (x - r) < qabs (x' - r)).
(** The same curve [c] later. *)
Definition later (c : Qc) (s : list (Qc * Qc)) : list (Qc * Qc) := map (fun p => (fst p + c, snd p)) s.
(** Is a time within limits, if they are given? *)
Definition within (lims : option Qc * option Qc) (t : Qc) : bool :=
  (match fst lims with Some a => qle a t | None => true end && match snd lims with Some b => qle t b | None => true end)%bool.
