(** Words of the properties of averaged files. *)
From Coq Require Import String.
From Verif.Base Require Import QcX Res Np Bytes.
From Verif.Model Require Import Bins Text Gmx Simple Formats.
From Verif.Spec Require Import MapSpec.
Local Open Scope list_scope.

(** The columns of a map. *)
Definition as_columns (m : list bin) : dict (list ext) :=
  [("X", map (fun b => Fin (bX b)) m); ("Y", map (fun b => Fin (bY b)) m); ("N", map (fun b => Fin (bN b)) m); ("T", map (fun b => Fin (bT b)) m);
   ("M", map (fun b => Fin (bM b)) m); ("U", map (fun b => Fin (bU b)) m); ("V", map (fun b => Fin (bV b)) m)]%string.
(** A file is read as a map of nx * ny bins with this grid information. *)
Definition map_file (fuel : nat) (file : bytes) (nx ny : nat) (x0 y0 dx dy : Qc) (m : list bin) : Prop :=
  read_data_file fuel (Some file) = Ok (as_columns m, mkMinfo (nx, ny) (Fin dx, Fin dy) (x0, y0)) /\ length m = (nx * ny)%nat.
(** [b] is the average of the bins [col] of several maps: masses and numbers are means, velocities are weighted by mass and
    temperatures by number, 0 without weight. *)
Definition averages (col : list bin) (b : bin) : Prop :=
  bM b * NQ (length col) = total bM col /\ bN b * NQ (length col) = total bN col /\
  bU b * total bM col = total (fun c => bM c * bU c) col /\ bV b * total bM col = total (fun c => bM c * bV c) col /\
  bT b * total bN col = total (fun c => bN c * bT c) col /\
  (total bM col = 0 -> bU b = 0 /\ bV b = 0) /\ (total bN col = 0 -> bT b = 0).
(** The bins of a regular grid in the order of files: column after column. *)
Definition column_grid (m : list bin) (nx ny : nat) (x0 y0 dx dy : Qc) : Prop :=
  length m = (nx * ny)%nat /\
  forall i j, (i < nx)%nat -> (j < ny)%nat -> let b := nth (i * ny + j) m bin0 in bX b = x0 + NQ i * dx /\ bY b = y0 + NQ j * dy.
(** Column number [c] (perhaps outside of the grid) is a nearest one to the position. *)
Definition nearest_column (x0 dx : Qc) (r : option Qc) (c : Z) : Prop :=
  exists v, r = Some v /\ forall k, qabs (v - (x0 + ZQ c * dx)) <= qabs (v - (x0 + ZQ k * dx)).
Definition is_min (l : list Z) (z : Z) : Prop := In z l /\ forall y, In y l -> (z <= y)%Z.
Definition is_max (l : list Z) (z : Z) : Prop := In z l /\ forall y, In y l -> (y <= z)%Z.
(** The two bins hold the same values, wherever they are. *)
Definition same_fields (a b : bin) : Prop := bN a = bN b /\ bT a = bT b /\ bM a = bM b /\ bU a = bU b /\ bV a = bV b.
(** No value of the map is larger in size. *)
Definition values_within (z : Qc) (m : list bin) : Prop :=
  forall b, In b m -> qabs (bN b) <= z /\ qabs (bT b) <= z /\ qabs (bM b) <= z /\ qabs (bU b) <= z /\ qabs (bV b) <= z.
(** Bin [c] of a file holds the values of [b]: related by [R] if there is mass, 0 otherwise. *)
Definition held_as (R : Qc -> Qc -> Prop) (b c : bin) : Prop :=
  (bM b = 0 -> bN c = 0 /\ bT c = 0 /\ bM c = 0 /\ bU c = 0 /\ bV c = 0) /\
  (bM b <> 0 -> R (bN b) (bN c) /\ R (bT b) (bT c) /\ R (bM b) (bM c) /\ R (bU b) (bU c) /\ R (bV b) (bV c)).
(** A number of at most six decimals. *)
Definition six_decimal_number (x : Qc) : Prop := exists n, x = ZQ n / ZQ 1000000.
(** The first number of bundle [i] of [M] frames beginning with [begin], and the number of its output. *)
Definition bundle_start (begin : Z) (M : nat) (rolling : bool) (i : nat) : Z := (begin + Z.of_nat (if rolling then i else i * M))%Z.
Definition bundle_output (begin : Z) (M : nat) (rolling : bool) (i : nat) (K : Z) : Prop :=
  let N := bundle_start begin M rolling i in if rolling then K = N else (Z.of_nat M * (K - 1) < N <= Z.of_nat M * K)%Z.
(** How many bundles fit into [n] frames. *)
Definition bundles (n M : nat) (rolling : bool) : nat := if rolling then (n + 1 - M)%nat else (n / M)%nat.
(** The cells in which one of the maps has mass. *)
Definition cells_with_mass (size : nat) (maps : list (list bin)) : nat :=
  length (filter (fun p => negb (qeq (total bM (map (fun m => nth p m bin0) maps)) 0)) (seq 0 size)).
(** Columns [c - lo], ..., [c - lo + w - 1] of a map: the map moved so that column [c] is where column [lo] was, and cut. *)
Definition shifted (m : list bin) (c lo : Z) (w ny : nat) : list bin := Sums.grid w ny (fun a b => nth ((Z.to_nat (c - lo) + a) * ny + b) m bin0).
(** The value is inside of the given limits (None: no limit). *)
Definition in_range (l : option Qc * option Qc) (v : Qc) : Prop := (forall a, fst l = Some a -> a <= v) /\ (forall b, snd l = Some b -> v <= b).
(** The columns inside of the limits are those from [a], [N] of them. *)
Definition range_columns (l : option Qc * option Qc) (x0 dx : Qc) (n a N : nat) : Prop :=
  (a + N <= n)%nat /\ forall i, (i < n)%nat -> in_range l (x0 + NQ i * dx) <-> (a <= i < a + N)%nat.
(** The part of a map of [ny] rows: columns from [a], [NX] of them, and rows from [b], [NY] of them. *)
Definition part (m : list bin) (ny a NX b NY : nat) : list bin := Sums.grid NX NY (fun i j => nth ((a + i) * ny + (b + j)) m bin0).
