(** Specification vocabulary for droplet interfaces. *)
From Verif.Base Require Import QcX.
From Verif.Model Require Import Bins.

(** Squared distance from bin [b] to bin [c] moved by [d] along x. *)
Definition dist2 (b c : bin) (d : Qc) : Qc :=
  (bX c + d - bX b) * (bX c + d - bX b) + (bY c - bY b) * (bY c - bY b).

(** Cell number [i] is part of the liquid: its value is at least [cutoff], and
    so are those of at least [nb] other cells within distance [r]. *)
Definition droplet_cell (V : bin -> Qc) (data : list bin) (cutoff r : Qc) (nb : Z) (i : nat) : Prop :=
  exists b js, nth_error data i = Some b /\ cutoff <= V b /\ NoDup js /\
    (forall j, In j js <-> j <> i /\ exists c, nth_error data j = Some c /\ cutoff <= V c /\ dist2 b c 0 <= r * r) /\
    (nb <= Z.of_nat (length js))%Z.

(** The same in a system periodic along x with period [box]: all images of all
    cells (number, image) except the cell itself count. *)
Definition periodic_droplet_cell (V : bin -> Qc) (data : list bin) (box cutoff r : Qc) (nb : Z) (i : nat) : Prop :=
  exists b js, nth_error data i = Some b /\ cutoff <= V b /\ NoDup js /\
    (forall j k, In (j, k) js <-> (j, k) <> (i, 0%Z) /\
       exists c, nth_error data j = Some c /\ cutoff <= V c /\ dist2 b c (ZQ k * box) <= r * r) /\
    (nb <= Z.of_nat (length js))%Z.

Definition in_layer (data : list bin) (y : Qc) (i : nat) : Prop := exists b, nth_error data i = Some b /\ bY b = y.
Definition x_of (data : list bin) (i : nat) : Qc := match nth_error data i with Some b => bX b | None => 0 end.

(** [i] is an outermost cell with property [P] in layer [y]. *)
Definition leftmost (data : list bin) (P : nat -> Prop) (y : Qc) (i : nat) : Prop :=
  P i /\ in_layer data y i /\ forall j, P j -> in_layer data y j -> x_of data i <= x_of data j.
Definition rightmost (data : list bin) (P : nat -> Prop) (y : Qc) (i : nat) : Prop :=
  P i /\ in_layer data y i /\ forall j, P j -> in_layer data y j -> x_of data j <= x_of data i.

(** Value at position [i] of a periodic pattern. *)
Definition cyc (f : list bool) (i : nat) : bool := nth (i mod length f) f false.
(** [len] consecutive positions from [a] are all set. *)
Definition run (f : list bool) (a len : nat) : Prop := forall k, (k < len)%nat -> cyc f (a + k) = true.

(** [a] and [b] are the first and last position of a longest run, of the
    whole pattern if all is set. *)
Definition longest_run (f : list bool) (a b : nat) : Prop :=
  let n := length f in
  (forall c, In c f -> c = true) /\ a = 0%nat /\ b = (n - 1)%nat \/
  exists len, (0 < len < n)%nat /\ (a < n)%nat /\ b = ((a + len - 1) mod n)%nat /\
    run f a len /\ cyc f (a + len) = false /\ cyc f (a + n - 1) = false /\
    forall a' len', run f a' len' -> (len' <= len)%nat.

(** [il] and [ir] are the end cells of the longest stretch of liquid in layer [y] of a periodic map. *)
Definition layer_stretch (V : bin -> Qc) (data : list bin) (box cutoff r : Qc) (nb : Z) (y : Qc) (il ir : nat) : Prop :=
  exists cells flags a b,
    (forall i, In i cells <-> in_layer data y i) /\
    (forall k l i j, (k < l)%nat -> nth_error cells k = Some i -> nth_error cells l = Some j -> x_of data i < x_of data j) /\
    Forall2 (fun i f => f = true <-> periodic_droplet_cell V data box cutoff r nb i) cells flags /\
    longest_run flags a b /\ nth_error cells a = Some il /\ nth_error cells b = Some ir.
(** Layer [y] contains liquid. *)
Definition wet_layer (V : bin -> Qc) (data : list bin) (box cutoff r : Qc) (nb : Z) (y : Qc) : Prop :=
  exists i, in_layer data y i /\ periodic_droplet_cell V data box cutoff r nb i.
(** The cells lie in the box [0, box) and those of a layer are stored from left to right. *)
Definition layers_in_order (data : list bin) (box : Qc) : Prop :=
  (forall c, In c data -> 0 <= bX c /\ bX c < box) /\
  (forall i j b c, (i < j)%nat -> nth_error data i = Some b -> nth_error data j = Some c -> bY b = bY c -> bX b < bX c).
