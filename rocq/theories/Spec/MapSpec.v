(** Specification vocabulary for data maps. *)
From Verif.Base Require Import QcX.
From Verif.Model Require Import Bins.

(** Total of a field over a list of bins. *)
Definition total (f : bin -> Qc) (l : list bin) : Qc := qsum (map f l).

(** [col] lists the bins at index [i] of all maps, in order. *)
Definition bins_at (i : nat) (maps : list (list bin)) (col : list bin) : Prop :=
  Forall2 (fun m b => nth_error m i = Some b) maps col.

(** [|a - b| <= atol + rtol*|b|]: numpy's definition of close. *)
Definition close (atol rtol a b : Qc) : Prop := qabs (a - b) <= atol + rtol * qabs b.

(** Two maps lie on the same grid within the tolerance: same number of bins, all coordinates close. *)
Definition same_grid (atol rtol : Qc) (first m : list bin) : Prop :=
  Forall2 (fun a b => close atol rtol (bX a) (bX b) /\ close atol rtol (bY a) (bY b)) first m.

(** Exactly the same coordinates. *)
Definition same_coords (m m' : list bin) : Prop :=
  Forall2 (fun a b => bX a = bX b /\ bY a = bY b) m m'.

(** Equal in all fields except the coordinates. *)
Definition same_values (m m' : list bin) : Prop :=
  Forall2 (fun a b => bN a = bN b /\ bT a = bT b /\ bM a = bM b /\ bU a = bU b /\ bV a = bV b) m m'.

Definition weights_nonneg (m : list bin) : Prop := forall b, In b m -> 0 <= bM b /\ 0 <= bN b.

(** Cells (p, q) of an [sx] by [sy] grid which belong to block (i, j) of [nx] by [ny] cells. *)
Definition block_cells (sx sy nx ny i j : nat) : list (nat * nat) :=
  filter (fun c => Nat.eqb (fst c / nx) i && Nat.eqb (snd c / ny) j)%bool
    (list_prod (seq 0 sx) (seq 0 sy)).
(** The bin of cell (p, q) in x-major order. *)
Definition cell (sy : nat) (data : list bin) (c : nat * nat) : option bin :=
  nth_error data (fst c * sy + snd c).

(** The data lies on the regular x-major grid described by [info]. *)
Definition on_grid (info : ginfo) (data : list bin) : Prop :=
  length data = (fst (shape info) * snd (shape info))%nat /\
  forall p q b, (p < fst (shape info))%nat -> (q < snd (shape info))%nat ->
    cell (snd (shape info)) data (p, q) = Some b ->
    bX b = fst (origin info) + NQ p * fst (spacing info) /\
    bY b = snd (origin info) + NQ q * snd (spacing info).
