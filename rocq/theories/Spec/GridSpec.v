(** Specification vocabulary for maps on regular grids. *)
From Coq Require Import String Permutation.
From Verif.Base Require Import QcX Np.
From Verif.Model Require Import Flow.
From Verif.Spec Require Import FlowSpec.
Local Open Scope list_scope.

(** The value of field [l] of a record (0 if there is no such field). *)
Definition fld (ls : list string) (l : string) (r : list Qc) : Qc :=
  match index_of l ls with Some k => nth k r 0 | None => 0 end.

(** The records are those of an [nx] by [ny] grid, row after row (x varies
    fastest), the first at [x0], [y0], with spacing [dx], [dy]. *)
Definition regular (ls : list string) (x0 y0 dx dy : Qc) (nx ny : nat) (rows : list (list Qc)) : Prop :=
  List.length rows = (ny * nx)%nat /\
  (forall r, In r rows -> List.length r = List.length ls) /\
  forall i j, (i < nx)%nat -> (j < ny)%nat ->
    let r := nth (j * nx + i) rows [] in
    fld ls "X" r = x0 + NQ i * dx /\ fld ls "Y" r = y0 + NQ j * dy.

(** A map whose grid information is that of its records, which are at points
    gx + a dx, gy + b dy with integers a, b. *)
Definition lattice_map (ls : list string) (gx gy dx dy : Qc) (m : flow) : Prop :=
  labels (data m) = ls /\ f_spacing (info m) = Some (dx, dy) /\
  exists a b nx ny, (0 < nx)%nat /\ (0 < ny)%nat /\ f_shape (info m) = Some (Z.of_nat nx, Z.of_nat ny) /\
    regular ls (gx + ZQ a * dx) (gy + ZQ b * dy) dx dy nx ny (rows (data m)).

(** Value of field [l] at position (x, y) in a map, 0 where the map has no record. *)
Definition value_at (ls : list string) (rows : list (list Qc)) (l : string) (x y : Qc) : Qc :=
  match find (fun r => (qeq (fld ls "X" r) x && qeq (fld ls "Y" r) y)%bool) rows with
  | Some r => fld ls l r
  | None => 0
  end.

(** [v] is the mean of [vs] with weights [ws]; 0 if all weights are 0. *)
Definition weighted_mean (vs ws : list Qc) (v : Qc) : Prop :=
  v * qsum ws = qsum (map (fun p => fst p * snd p) (combine vs ws)) /\ (qsum ws = 0 -> v = 0).

(** The weights name fields of the map, no coordinates, no field twice, and no
    weight is itself an averaged-with-weights field. *)
Definition names_ok (ls : list string) (weights : list (string * string)) : Prop :=
  NoDup (map fst weights) /\ forall l w, In (l, w) weights ->
    In l ls /\ In w ls /\ ~ In w (map fst weights) /\ l <> "X"%string /\ l <> "Y"%string /\ w <> "X"%string /\ w <> "Y"%string.

(** The records are those of a regular grid, in any order. *)
Definition gridded (ls : list string) (x0 y0 dx dy : Qc) (nx ny : nat) (rows : list (list Qc)) : Prop :=
  exists g, Permutation rows g /\ regular ls x0 y0 dx dy nx ny g.

(** The record [r] is in the area of size [sx] by [sy] around (x, y). *)
Definition in_area (ls : list string) (x y sx sy : Qc) (r : list Qc) : Prop :=
  qabs (fld ls "X" r - x) < sx / ZQ 2 /\ qabs (fld ls "Y" r - y) < sy / ZQ 2.

(** The record lies within the limits given, bounds included (None: no bound). *)
Definition in_limits (ls : list string) (xlim ylim : option Qc * option Qc) (r : list Qc) : Prop :=
  inside (fst xlim) (snd xlim) (fld ls "X" r) /\ inside (fst ylim) (snd ylim) (fld ls "Y" r).
