(** Specification vocabulary for tables and selections. *)
From Coq Require Import String.
From Verif.Base Require Import QcX.
From Verif.Model Require Import Flow.

(** [m] is [l] without the elements which do not satisfy [P]: exactly the
    others, with their multiplicity and in their order. *)
Inductive selects {A} (P : A -> Prop) : list A -> list A -> Prop :=
| sel_nil : selects P [] []
| sel_keep x l m : P x -> selects P l m -> selects P (x :: l) (x :: m)
| sel_drop x l m : ~ P x -> selects P l m -> selects P (x :: l) m.

(** Distinct field names, one value per field in each record. *)
Definition wf (t : table) : Prop :=
  NoDup (labels t) /\ forall r, In r (rows t) -> length r = length (labels t).

(** Record [r] of a table with these field names has value [v] in field [l]. *)
Definition has (ls : list string) (l : string) (r : list Qc) (v : Qc) : Prop :=
  exists k, nth_error ls k = Some l /\ nth_error r k = Some v.

(** [None] is no limit. *)
Definition inside (lo hi : option Qc) (v : Qc) : Prop :=
  (forall a, lo = Some a -> a <= v) /\ (forall b, hi = Some b -> v <= b).

(** The value of field [l] of [r] is inside the limits. *)
Definition field_inside ls l lo hi (r : list Qc) : Prop := exists v, has ls l r v /\ inside lo hi v.

(** [r'] is [r] with [d] added to field [l]. *)
Definition shifted (ls : list string) (l : string) (d : Qc) (r r' : list Qc) : Prop :=
  length r' = length r /\
  (forall v, has ls l r v -> has ls l r' (v + d)) /\
  (forall l' v, l' <> l -> has ls l' r v -> has ls l' r' v).
