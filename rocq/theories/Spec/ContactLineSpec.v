(** Words of the properties of contact lines. *)
From Verif.Base Require Import QcX Np.
From Verif.Model Require Import Bins.
From Verif.Spec Require Import InterfaceSpec.
Local Open Scope list_scope.

(** Layers of an interface, from below: their heights [ys], and the cells at the left and right edge. *)
Definition interface_layers (data : list bin) (ys : list Qc) (pairs : list (nat * nat)) : Prop :=
  increasing ys /\ Forall2 (fun y p => in_layer data y (fst p) /\ in_layer data y (snd p)) ys pairs.

(** A layer of one edge: height and position. *)
Definition layer := (Qc * Qc)%type.
(** The layers up to [h] above the lowest (which is always one of them). *)
Definition low (h : Qc) (y0 : Qc) (ls : list layer) (l : layer) : Prop := In l ls /\ (fst l = y0 \/ fst l <= y0 + h).
(** The highest layer of [low] layers which is at most [eh] above the lowest, or the lowest if [eh] is negative. *)
Definition reference (eh h : Qc) (y0 : Qc) (ls : list layer) (l : layer) : Prop :=
  low h y0 ls l /\ (fst l = y0 \/ fst l <= y0 + eh) /\
  forall l', low h y0 ls l' -> fst l' <= y0 + eh -> fst l' <= fst l.
(** Cell [b] is between the lowest and highest low layer, and horizontally in the range spanned by the
    edge positions of the low layers and the point [inner] from that of the reference layer. *)
Definition contact_cell (inner eh h y0 : Qc) (ls : list layer) (b : bin) : Prop :=
  y0 <= bY b /\ (exists l, low h y0 ls l /\ bY b <= fst l) /\
  exists rf, reference eh h y0 ls rf /\
    ((exists l, low h y0 ls l /\ snd l <= bX b) \/ snd rf + inner <= bX b) /\
    ((exists l, low h y0 ls l /\ bX b <= snd l) \/ bX b <= snd rf + inner).
