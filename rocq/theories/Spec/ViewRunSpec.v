(** Words of the properties of figures of series of files. *)
From Coq Require Import String Reals Permutation.
From Verif.Base Require Import QcX QcR Res.
From Verif.Model Require Import Bins Flow Sample ViewFlow.
From Verif.Spec Require Import FlowSpec.
Local Open Scope string_scope.
Local Open Scope list_scope.

(** Names of fields of a map. *)
Inductive named : string -> (bin -> Qc) -> Prop :=
| named_x : named "X" bX | named_y : named "Y" bY | named_u : named "U" bU | named_v : named "V" bV | named_m : named "M" bM | named_n : named "N" bN | named_t : named "T" bT.
(** [r] is the speed in the bin. *)
Definition speed (b : bin) (r : R) : Prop := (0 <= r)%R /\ (r * r = QR (bU b) * QR (bU b) + QR (bV b) * QR (bV b))%R.
(** [v] is the component of the flow along the circle around (x0, y0), clockwise. *)
Definition around (x0 y0 : Qc) (b : bin) (v : R) : Prop :=
  bX b <> x0 \/ bY b <> y0 ->
  exists r, (0 < r)%R /\ (r * r = QR (bX b - x0) * QR (bX b - x0) + QR (bY b - y0) * QR (bY b - y0))%R /\
    v = (QR (bU b) * (QR (bY b - y0) / r) + QR (bV b) * (- QR (bX b - x0) / r))%R.
(** The colour of a bin of the map [data]. *)
Definition coloured (data : list bin) (fi : finfo) (colour : option string) (b : bin) (v : R) : Prop :=
  match colour with
  | None => v = 1%R
  | Some c =>
    (c = "flow" -> speed b v) /\
    (c = "radial" -> exists x0 y0, sample_center_of_mass data = Ok (x0, y0) /\ around x0 y0 b v) /\
    (c = "visc" -> exists s vs k, sample_viscous_dissipation data fi (Q2Qc (877 # 1000000)) bM = (s, Ok vs) /\ nth_error s k = Some b /\ exists q, nth_error vs k = Some q /\ v = QR q) /\
    (c = "evaporation" -> exists l gx gy, add_density_gradient data fi = Ok l /\ In (b, (gx, gy)) l /\ v = QR (bU b * gx + bV b * gy)) /\
    (forall f, named c f -> v = QR (f b)) /\
    (~ In c ["flow"; "radial"; "visc"; "evaporation"] -> (forall f, ~ named c f) -> v = 1%R)
  end.
(** The bins which have an arrow: flow along both axes, inside the limits, not below the cutoff. *)
Definition drawn (clabel : option string) (cutoff : option Qc) (xlim ylim : option Qc * option Qc) (b : bin) : Prop :=
  bU b <> 0 /\ bV b <> 0 /\ inside (fst xlim) (snd xlim) (bX b) /\ inside (fst ylim) (snd ylim) (bY b) /\
  forall l f, clabel = Some l -> named l f -> inside cutoff None (f b).
(** The value of a bin of the map [data] in the field [label], in the file or derived. *)
Definition valued (data : list bin) (fi : finfo) (label : string) (b : bin) (v : R) : Prop :=
  (label = "flow" -> speed b v) /\
  (label = "visc_diss" -> exists s vs k, sample_viscous_dissipation data fi (Q2Qc (877 # 1000000)) bM = (s, Ok vs) /\ nth_error s k = Some b /\ exists q, nth_error vs k = Some q /\ v = QR q) /\
  (label = "evaporation" -> exists l gx gy, add_density_gradient data fi = Ok l /\ In (b, (gx, gy)) l /\ v = QR (bU b * gx + bV b * gy)) /\
  (label = "grad_rho_x" -> exists l gx gy, add_density_gradient data fi = Ok l /\ In (b, (gx, gy)) l /\ v = QR gx) /\
  (label = "grad_rho_y" -> exists l gx gy, add_density_gradient data fi = Ok l /\ In (b, (gx, gy)) l /\ v = QR gy) /\
  (forall f, named label f -> v = QR (f b)).
(** Names of fields in the file or derived from it. *)
Definition known_field (label : string) : Prop := (exists f, named label f) \/ In label ["flow"; "visc_diss"; "evaporation"; "grad_rho_x"; "grad_rho_y"].
(** [w] is [v], but not outside the limits. *)
Definition clipped (lim : option Qc * option Qc) (v w : R) : Prop :=
  ((forall lo, fst lim = Some lo -> (QR lo <= v)%R) -> (forall hi, snd lim = Some hi -> (v <= QR hi)%R) -> w = v) /\
  (forall lo, fst lim = Some lo -> (v <= QR lo)%R -> (forall hi, snd lim = Some hi -> (QR lo <= QR hi)%R) -> w = QR lo) /\
  (forall hi, snd lim = Some hi -> (QR hi <= v)%R -> w = QR hi).
