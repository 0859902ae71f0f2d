(** Specification words: grids of bins and velocity fields. *)
From Verif.Base Require Import QcX Np.
From Verif.Model Require Import Bins.
Local Open Scope list_scope.

(** The bins are those of a regular grid, in any order: one at each of the nx * ny points. *)
Definition bins_on_grid (data : list bin) (x0 y0 dx dy : Qc) (nx ny : nat) : Prop :=
  0 < dx /\ 0 < dy /\ length data = (ny * nx)%nat /\
  forall i j, (i < nx)%nat -> (j < ny)%nat -> exists b, In b data /\ bX b = x0 + NQ i * dx /\ bY b = y0 + NQ j * dy.
(** A quadratic field a + b x + c y + d x^2 + e x y + f y^2 with its derivatives. *)
Record quadratic := mkQuad { q1 : Qc; qx : Qc; qy : Qc; qxx : Qc; qxy : Qc; qyy : Qc }.
Definition value (p : quadratic) (x y : Qc) : Qc := q1 p + qx p * x + qy p * y + qxx p * x * x + qxy p * x * y + qyy p * y * y.
Definition d_dx (p : quadratic) (x y : Qc) : Qc := qx p + (1 + 1) * qxx p * x + qxy p * y.
Definition d_dy (p : quadratic) (x y : Qc) : Qc := qy p + (1 + 1) * qyy p * y + qxy p * x.
(** Viscous dissipation per volume of a plane flow: mu (2 (ux^2 + vy^2) - 2/3 (ux + vy)^2 + (vx + uy)^2). *)
Definition viscous (mu ux uy vx vy : Qc) : Qc :=
  mu * ((1 + 1) * (ux * ux + vy * vy) - (1 + 1) / (1 + 1 + 1) * ((ux + vy) * (ux + vy)) + (vx + uy) * (vx + uy)).
(** The flow of the bins is given by two fields. *)
Definition flow_is (data : list bin) (u v : quadratic) : Prop := forall b, In b data -> bU b = value u (bX b) (bY b) /\ bV b = value v (bX b) (bY b).
