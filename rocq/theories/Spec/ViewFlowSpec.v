(** Words of the properties of drawn maps. *)
From Coq Require Import String.
From Verif.Base Require Import QcX.
From Verif.Model Require Import Bins Flow.
From Verif.Spec Require Import FlowSpec GridSpec.
Local Open Scope list_scope.

(** The record has flow along both axes / any flow. *)
Definition both_components (ls : list string) (u v : string) (r : list Qc) : Prop := fld ls u r <> 0 /\ fld ls v r <> 0.
Definition any_flow (ls : list string) (u v : string) (r : list Qc) : Prop := fld ls u r <> 0 \/ fld ls v r <> 0.
(** The record is inside the limits for both coordinates and reaches the cutoff, if there is one. *)
Definition visible (ls : list string) (x y : string) (clim : option string * option Qc) (xlim ylim : option Qc * option Qc) (r : list Qc) : Prop :=
  inside (fst xlim) (snd xlim) (fld ls x r) /\ inside (fst ylim) (snd ylim) (fld ls y r) /\
  forall l, fst clim = Some l -> inside (snd clim) None (fld ls l r).
(** The mass density is m0 + a x + b y. *)
Definition linear_density (data : list bin) (m0 a b : Qc) : Prop := forall r, In r data -> bM r = m0 + a * bX r + b * bY r.
