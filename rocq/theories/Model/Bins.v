(** Data maps with the seven standard fields.

    In /repo a map is a dict of equally long numpy arrays or a record array,
    with fields 'X', 'Y', 'N', 'T', 'M', 'U', 'V'
    (strata/dataformats/read.py, simple/read.py:71-73).  It is modelled as the list of its rows. *)
From Verif.Base Require Import QcX.

Record bin := mkBin { bX : Qc; bY : Qc; bN : Qc; bT : Qc; bM : Qc; bU : Qc; bV : Qc }.
Definition bin0 := mkBin 0 0 0 0 0 0 0.

Definition beq (a b : bin) : bool :=
  qeq (bX a) (bX b) && qeq (bY a) (bY b) && qeq (bN a) (bN b) && qeq (bT a) (bT b)
  && qeq (bM a) (bM b) && qeq (bU a) (bU b) && qeq (bV a) (bV b).

(** The info dict: 'shape', 'spacing', 'origin', 'num_bins'. *)
Record ginfo := mkInfo { shape : nat * nat; spacing : Qc * Qc; origin : Qc * Qc; num_bins : nat }.
