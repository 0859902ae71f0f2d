(** Specification vocabulary for reordered and mirrored maps. *)
From Verif.Base Require Import QcX.
From Verif.Model Require Import Bins.
Local Open Scope list_scope.

(** The mirror image of a bin, with the mirror halfway between 0 and [t]: flow along x changes its sign. *)
Definition mirror (t : Qc) (b : bin) : bin := mkBin (t - bX b) (bY b) (bN b) (bT b) (bM b) (- bU b) (bV b).
(** Where the layers of an interface are: the positions of the left and the right edge, and the height. *)
Definition places (data : list bin) (pairs : list (nat * nat)) : list (Qc * Qc * Qc) :=
  map (fun p => (bX (nth (fst p) data bin0), bX (nth (snd p) data bin0), bY (nth (fst p) data bin0))) pairs.
(** The mirror image of an interface: left and right change places. *)
Definition mirrored (t : Qc) (ls : list (Qc * Qc * Qc)) : list (Qc * Qc * Qc) := map (fun l => (t - snd (fst l), t - fst (fst l), snd l)) ls.
