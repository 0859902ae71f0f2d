(** Words of the properties of contact line edges. *)
From Coq Require Import String.
From Verif.Base Require Import QcX Np.
From Verif.Model Require Import Bins Flow Sample ContactLine.
From Verif.Spec Require Import GridSpec.
Local Open Scope list_scope.

(** [n] consecutive elements from number [start]. *)
Definition window {A} (start n : nat) (l : list A) : list A := firstn n (skipn start l).

(** [r'] is [r] moved by (a, b): all fields but the coordinates are the same. *)
Definition moved (ls : list string) (a b : Qc) (r r' : list Qc) : Prop :=
  List.length r' = List.length r /\ fld ls "X" r' = fld ls "X" r + a /\ fld ls "Y" r' = fld ls "Y" r + b /\
  forall l, l <> "X"%string -> l <> "Y"%string -> fld ls l r' = fld ls l r.

(** The cells (of a map with the standard fields) fill a rectangle of at least two layers. *)
Definition edge_cells (dx dy : Qc) (cells : list bin) : Prop :=
  exists x0 y0 nx ny, (0 < nx)%nat /\ (1 < ny)%nat /\ gridded fields x0 y0 dx dy nx ny (map row_of cells).

(** The inner end of an edge: its rightmost position for the left edge, its leftmost for the right. *)
Definition inner_end (d : side) (cells : list bin) (x : Qc) : Prop :=
  In x (map bX cells) /\ forall b, In b cells -> match d with SLeft => bX b <= x | SRight => x <= bX b | SOther => False end.
Definition lowest (cells : list bin) (y : Qc) : Prop := In y (map bY cells) /\ forall b, In b cells -> y <= bY b.

(** Value of field [l] at the place (x, y), 0 where there is no cell. *)
Definition cell_value (cells : list bin) (l : string) (x y : Qc) : Qc := value_at fields (map row_of cells) l x y.

(** Combination of two values where 0 is no value: the mean of both, or the one there is. *)
Definition merged_mean (a b m : Qc) : Prop :=
  (a <> 0 -> b <> 0 -> m = (a + b) / ZQ 2) /\ (b = 0 -> m = a) /\ (a = 0 -> m = b).
(** The same with weights u and v. *)
Definition merged_weighted (a u b v m : Qc) : Prop :=
  (a <> 0 -> b <> 0 -> u + v <> 0 -> m = (u * a + v * b) / (u + v)) /\ (a <> 0 -> b <> 0 -> u + v = 0 -> m = 0) /\
  (b = 0 -> m = a) /\ (a = 0 -> m = b).
(** No place with records of both. *)
Definition apart (rows rows' : list (list Qc)) : Prop :=
  forall r r', In r rows -> In r' rows' -> ~ (fld fields "X" r = fld fields "X" r' /\ fld fields "Y" r = fld fields "Y" r').

(** The records are the average of the cells of the frames, whose edges are at [ps]: cells at the same
    place relative to the edge are averaged, and the edge is placed at (x, y). *)
Definition edge_average_of (d : side) (dx dy : Qc) (frames : list (list bin)) (ps : list (Qc * Qc)) (x y : Qc) (rows : list (list Qc)) : Prop :=
  Forall2 (fun c p => inner_end d c (fst p) /\ lowest c (snd p)) frames ps /\
  (exists nx ny, (0 < nx)%nat /\ (0 < ny)%nat /\
     regular fields (match d with SLeft => x - NQ (nx - 1) * dx | _ => x end) y dx dy nx ny rows) /\
  (forall c p b, In (c, p) (combine frames ps) -> In b c ->
     exists r, In r rows /\ fld fields "X" r - x = bX b - fst p /\ fld fields "Y" r - y = bY b - snd p) /\
  forall r, In r rows ->
    let values l := map (fun cp => cell_value (fst cp) l (fld fields "X" r - x + fst (snd cp)) (fld fields "Y" r - y + snd (snd cp))) (combine frames ps) in
    (forall l, In l ["N"; "M"]%string -> fld fields l r = qmean (values l)) /\
    ((forall c b, In c frames -> In b c -> 0 <= bM b /\ 0 <= bN b) ->
     weighted_mean (values "U"%string) (values "M"%string) (fld fields "U" r) /\
     weighted_mean (values "V"%string) (values "M"%string) (fld fields "V" r) /\
     weighted_mean (values "T"%string) (values "N"%string) (fld fields "T" r)).

(** [x'] is the middle of a bin of size d, at most half a bin from x. *)
Definition snapped (d x x' : Qc) : Prop :=
  (exists k, x' = (ZQ k + 1 / ZQ 2) * d) /\ x - d / ZQ 2 < x' /\ x' <= x + d / ZQ 2.
