(** Rationals as real numbers. *)
From Coq Require Import Reals Qreals RMicromega.
From Verif.Base Require Import QcX.

Definition QR (q : Qc) : R := Q2R (this q).
Local Open Scope R_scope.
Lemma QR_0 : QR 0%Qc = 0. Proof. apply RMicromega.Q2R_0. Qed.
Lemma QR_1 : QR 1%Qc = 1. Proof. apply RMicromega.Q2R_1. Qed.
Lemma QR_add a b : QR (a + b)%Qc = QR a + QR b.
Proof. unfold QR. rewrite <- Q2R_plus. apply Qeq_eqR. apply this_plus. Qed.
Lemma QR_mul a b : QR (a * b)%Qc = QR a * QR b.
Proof. unfold QR. rewrite <- Q2R_mult. apply Qeq_eqR. apply this_mult. Qed.
Lemma QR_opp a : QR (- a)%Qc = - QR a.
Proof. unfold QR. rewrite <- Q2R_opp. apply Qeq_eqR. apply this_opp. Qed.
Lemma QR_sub a b : QR (a - b)%Qc = QR a - QR b.
Proof. unfold Qcminus. rewrite QR_add, QR_opp. reflexivity. Qed.
Lemma QR_inv a : a <> 0%Qc -> QR (/ a)%Qc = / QR a.
Proof.
  intros H. unfold QR. rewrite <- Q2R_inv.
  - apply Qeq_eqR. unfold Qcinv. apply Qred_correct.
  - intros E. apply H. apply Qc_is_canon. rewrite E. reflexivity.
Qed.
Lemma QR_div a b : b <> 0%Qc -> QR (a / b)%Qc = QR a / QR b.
Proof. intros H. unfold Qcdiv, Rdiv. rewrite QR_mul, QR_inv by exact H. reflexivity. Qed.
Lemma QR_lt a b : (a < b)%Qc <-> QR a < QR b.
Proof. unfold QR, Qclt. split; [apply Qlt_Rlt|apply Rlt_Qlt]. Qed.
Lemma QR_le a b : (a <= b)%Qc <-> QR a <= QR b.
Proof. unfold QR, Qcle. split; [apply Qle_Rle|apply Rle_Qle]. Qed.
Lemma QR_inj a b : QR a = QR b -> a = b.
Proof. unfold QR. intros H. apply Qc_is_canon. apply eqR_Qeq. exact H. Qed.
Lemma QR_pos a : (0 < a)%Qc <-> 0 < QR a.
Proof. rewrite QR_lt, QR_0. reflexivity. Qed.
Lemma QR_nz a : a <> 0%Qc -> QR a <> 0.
Proof. intros H E. apply H. apply QR_inj. rewrite QR_0. exact E. Qed.
