(** Exact rational arithmetic for the model.  numpy float64 numbers are
    modelled as canonical rationals [Qc] (Leibniz equality); rounding is not
    modelled.  This file holds no model of /repo code, only the number type,
    boolean comparisons and a decision tactic [qlra] / [qnra]. *)
From Coq Require Export List ZArith QArith Qcanon Lia Bool.
From Coq Require Export Lqa.
From Coq Require Import Permutation.
Export ListNotations.

Close Scope Q_scope.
Open Scope Z_scope.
Open Scope nat_scope.
Open Scope Qc_scope.

Arguments Q2Qc : simpl never.
Arguments Qcplus : simpl never.
Arguments Qcmult : simpl never.
Arguments Qcopp : simpl never.
Arguments Qcminus : simpl never.
Arguments Qcinv : simpl never.
Arguments Qcdiv : simpl never.

Definition qle (x y : Qc) : bool := Qle_bool (this x) (this y).
Definition qlt (x y : Qc) : bool := negb (Qle_bool (this y) (this x)).
Definition qeq (x y : Qc) : bool := Qeq_bool (this x) (this y).

(** Integer and natural number injections. *)
Definition ZQ (z : Z) : Qc := Q2Qc (inject_Z z).
Definition NQ (n : nat) : Qc := ZQ (Z.of_nat n).

Definition qabs (x : Qc) : Qc := if qle 0 x then x else - x.
Definition qmin (x y : Qc) : Qc := if qle x y then x else y.
Definition qmax (x y : Qc) : Qc := if qle x y then y else x.

(** Homomorphism facts used by the tactic. *)
Lemma this_Q2Qc q : Qeq (this (Q2Qc q)) q.
Proof. simpl. apply Qred_correct. Qed.
Lemma this_plus a b : Qeq (this (a + b)) (Qplus (this a) (this b)).
Proof. unfold Qcplus. apply this_Q2Qc. Qed.
Lemma this_mult a b : Qeq (this (a * b)) (Qmult (this a) (this b)).
Proof. unfold Qcmult. apply this_Q2Qc. Qed.
Lemma this_opp a : Qeq (this (- a)) (Qopp (this a)).
Proof. unfold Qcopp. apply this_Q2Qc. Qed.
Lemma this_minus a b : Qeq (this (a - b)) (Qminus (this a) (this b)).
Proof. unfold Qcminus. rewrite this_plus, this_opp. reflexivity. Qed.
Lemma this_inv a : Qeq (this (/ a)) (Qinv (this a)).
Proof. unfold Qcinv. apply this_Q2Qc. Qed.
Lemma this_div a b : Qeq (this (a / b)) (Qmult (this a) (this (/ b))).
Proof. unfold Qcdiv. rewrite this_mult. reflexivity. Qed.
Lemma this_ZQ z : Qeq (this (ZQ z)) (inject_Z z).
Proof. apply this_Q2Qc. Qed.

Lemma this_eq_inj a b : Qeq (this a) (this b) -> a = b.
Proof. apply Qc_is_canon. Qed.
Lemma this_eq_of a b : a = b -> Qeq (this a) (this b).
Proof. intros ->. reflexivity. Qed.
Lemma this_le_of a b : a <= b -> Qle (this a) (this b).
Proof. exact (fun H => H). Qed.
Lemma this_lt_of a b : a < b -> Qlt (this a) (this b).
Proof. exact (fun H => H). Qed.

Lemma qle_spec x y : reflect (x <= y) (qle x y).
Proof.
  unfold qle. destruct (Qle_bool (this x) (this y)) eqn:E; constructor.
  - apply Qle_bool_iff in E. exact E.
  - intros H. apply Qle_bool_iff in H. congruence.
Qed.
Lemma qlt_spec x y : reflect (x < y) (qlt x y).
Proof.
  unfold qlt. destruct (Qle_bool (this y) (this x)) eqn:E; simpl; constructor.
  - apply Qle_bool_iff in E. apply Qle_not_lt. exact E.
  - apply Qnot_le_lt. intros H. apply Qle_bool_iff in H. congruence.
Qed.
Lemma qeq_spec x y : reflect (x = y) (qeq x y).
Proof.
  unfold qeq. destruct (Qeq_bool (this x) (this y)) eqn:E; constructor.
  - apply Qc_is_canon. apply Qeq_bool_iff. exact E.
  - intros ->. pose proof (Qeq_refl (this y)) as H.
    apply Qeq_bool_iff in H. congruence.
Qed.

Lemma qle_true x y : qle x y = true <-> x <= y.
Proof. destruct (qle_spec x y); split; intros; auto; discriminate. Qed.
Lemma qle_false x y : qle x y = false <-> y < x.
Proof.
  destruct (qle_spec x y) as [H|H]; split; intros H'; auto; try discriminate.
  - exfalso. apply (Qcle_not_lt _ _ H H').
  - apply Qcnot_le_lt. exact H.
Qed.
Lemma qlt_true x y : qlt x y = true <-> x < y.
Proof. destruct (qlt_spec x y); split; intros; auto; discriminate. Qed.
Lemma qlt_false x y : qlt x y = false <-> y <= x.
Proof.
  destruct (qlt_spec x y) as [H|H]; split; intros H'; auto; try discriminate.
  - exfalso. apply (Qcle_not_lt _ _ H' H).
  - apply Qcnot_lt_le. exact H.
Qed.
Lemma qeq_true x y : qeq x y = true <-> x = y.
Proof. destruct (qeq_spec x y); split; intros; auto; discriminate. Qed.
Lemma qeq_false x y : qeq x y = false <-> x <> y.
Proof. destruct (qeq_spec x y); split; intros; auto; try discriminate; contradiction. Qed.
Lemma qeq_refl x : qeq x x = true.
Proof. apply qeq_true. reflexivity. Qed.

(** Reduce a goal over [Qc] to one over [Q], naming the values of compound
    terms so that [lra]/[nra] can finish. *)
Ltac qc_hyps :=
  repeat match goal with
  | H : @eq Qc ?a ?b |- _ => apply this_eq_of in H
  | H : Qcle ?a ?b |- _ => apply this_le_of in H
  | H : Qclt ?a ?b |- _ => apply this_lt_of in H
  | H : Qcge ?a ?b |- _ => apply (this_le_of b a) in H
  | H : Qcgt ?a ?b |- _ => apply (this_lt_of b a) in H
  | H : qle _ _ = true |- _ => apply qle_true in H
  | H : qle _ _ = false |- _ => apply qle_false in H
  | H : qlt _ _ = true |- _ => apply qlt_true in H
  | H : qlt _ _ = false |- _ => apply qlt_false in H
  | H : qeq _ _ = true |- _ => apply qeq_true in H
  end.
Ltac qc_goal :=
  lazymatch goal with
  | |- @eq Qc _ _ => apply this_eq_inj
  | |- Qcle ?a ?b => change (Qle (this a) (this b))
  | |- Qclt ?a ?b => change (Qlt (this a) (this b))
  | |- Qcge ?a ?b => change (Qle (this b) (this a))
  | |- Qcgt ?a ?b => change (Qlt (this b) (this a))
  | |- _ => idtac
  end.
Ltac qc_name t L :=
  let E := fresh "E" in let v := fresh "v" in
  pose proof L as E; set (v := t) in *; clearbody v.
Ltac qc_is_pos p := lazymatch p with xH => idtac | xO ?q => qc_is_pos q | xI ?q => qc_is_pos q end.
Ltac qc_is_Z z := lazymatch z with Z0 => idtac | Zpos ?p => qc_is_pos p | Zneg ?p => qc_is_pos p end.
Ltac qc_const n d :=
  qc_is_Z n; qc_is_pos d;
  let v := eval vm_compute in (Qred (Qmake n d)) in
  change (this (Q2Qc (Qmake n d))) with v in *.
Ltac qc_closed t z :=
  qc_is_Z z; let v := eval vm_compute in t in change t with v in *.
Ltac qc_expand_one :=
  match goal with
  | |- context [this (Qcinv (ZQ ?z))] => qc_closed (this (Qcinv (ZQ z))) z
  | H : context [this (Qcinv (ZQ ?z))] |- _ => qc_closed (this (Qcinv (ZQ z))) z
  | |- context [this (ZQ ?z)] => qc_closed (this (ZQ z)) z
  | H : context [this (ZQ ?z)] |- _ => qc_closed (this (ZQ z)) z
  | |- context [this (Q2Qc (Qmake ?n ?d))] => qc_const n d
  | H : context [this (Q2Qc (Qmake ?n ?d))] |- _ => qc_const n d
  | |- context [this (Qcplus ?a ?b)] => qc_name (this (Qcplus a b)) (this_plus a b)
  | |- context [this (Qcmult ?a ?b)] => qc_name (this (Qcmult a b)) (this_mult a b)
  | |- context [this (Qcminus ?a ?b)] => qc_name (this (Qcminus a b)) (this_minus a b)
  | |- context [this (Qcopp ?a)] => qc_name (this (Qcopp a)) (this_opp a)
  | |- context [this (Qcdiv ?a ?b)] => qc_name (this (Qcdiv a b)) (this_div a b)
  | |- context [this (Q2Qc ?q)] => qc_name (this (Q2Qc q)) (this_Q2Qc q)
  | H : context [this (Qcplus ?a ?b)] |- _ => qc_name (this (Qcplus a b)) (this_plus a b)
  | H : context [this (Qcmult ?a ?b)] |- _ => qc_name (this (Qcmult a b)) (this_mult a b)
  | H : context [this (Qcminus ?a ?b)] |- _ => qc_name (this (Qcminus a b)) (this_minus a b)
  | H : context [this (Qcopp ?a)] |- _ => qc_name (this (Qcopp a)) (this_opp a)
  | H : context [this (Qcdiv ?a ?b)] |- _ => qc_name (this (Qcdiv a b)) (this_div a b)
  | H : context [this (Q2Qc ?q)] |- _ => qc_name (this (Q2Qc q)) (this_Q2Qc q)
  end.
Ltac qc2q := qc_goal; qc_hyps; repeat qc_expand_one.
Ltac qlra := intros; try exfalso; qc2q; lra.
Ltac qlra' := intros; qc2q; lra.
Ltac qsolve := intros; qc2q; first [lra | nra].
Ltac qnra := intros; qc2q; nra.

Ltac qcases :=
  repeat match goal with
  | |- context [qle ?a ?b] => destruct (qle_spec a b)
  | |- context [qlt ?a ?b] => destruct (qlt_spec a b)
  | |- context [qeq ?a ?b] => destruct (qeq_spec a b)
  end.

Lemma NQ_0 : NQ 0 = 0.
Proof. reflexivity. Qed.
Lemma ZQ_add a b : ZQ (a + b) = ZQ a + ZQ b.
Proof. apply Qc_is_canon. rewrite this_plus, !this_ZQ. rewrite inject_Z_plus. reflexivity. Qed.
Lemma ZQ_opp a : ZQ (- a) = - ZQ a.
Proof. apply Qc_is_canon. rewrite this_opp, !this_ZQ. rewrite inject_Z_opp. reflexivity. Qed.
Lemma ZQ_sub a b : ZQ (a - b) = ZQ a - ZQ b.
Proof. unfold Z.sub. rewrite ZQ_add, ZQ_opp. reflexivity. Qed.
Lemma ZQ_mul a b : ZQ (a * b) = ZQ a * ZQ b.
Proof. apply Qc_is_canon. rewrite this_mult, !this_ZQ. rewrite inject_Z_mult. reflexivity. Qed.
Lemma ZQ_le a b : ZQ a <= ZQ b <-> (a <= b)%Z.
Proof. unfold Qcle. rewrite !this_ZQ. rewrite <- Zle_Qle. reflexivity. Qed.
Lemma ZQ_lt a b : ZQ a < ZQ b <-> (a < b)%Z.
Proof. unfold Qclt. rewrite !this_ZQ. rewrite <- Zlt_Qlt. reflexivity. Qed.
Lemma ZQ_inj a b : ZQ a = ZQ b -> a = b.
Proof. intros H. apply this_eq_of in H. rewrite !this_ZQ in H. apply inject_Z_injective. exact H. Qed.
Lemma ZQ_0 : ZQ 0 = 0. Proof. reflexivity. Qed.
Lemma ZQ_1 : ZQ 1 = 1. Proof. reflexivity. Qed.
Lemma NQ_add a b : NQ (a + b) = NQ a + NQ b.
Proof. unfold NQ. rewrite Nat2Z.inj_add. apply ZQ_add. Qed.
Lemma NQ_mul a b : NQ (a * b) = NQ a * NQ b.
Proof. unfold NQ. rewrite Nat2Z.inj_mul. apply ZQ_mul. Qed.
Lemma NQ_S n : NQ (S n) = NQ n + 1.
Proof. unfold NQ. rewrite Nat2Z.inj_succ. unfold Z.succ. rewrite ZQ_add. reflexivity. Qed.
Lemma NQ_1 : NQ 1 = 1. Proof. reflexivity. Qed.
Lemma NQ_le a b : NQ a <= NQ b <-> (a <= b)%nat.
Proof. unfold NQ. rewrite ZQ_le. lia. Qed.
Lemma NQ_lt a b : NQ a < NQ b <-> (a < b)%nat.
Proof. unfold NQ. rewrite ZQ_lt. lia. Qed.
Lemma NQ_inj a b : NQ a = NQ b -> a = b.
Proof. intros H. apply ZQ_inj in H. lia. Qed.
Lemma NQ_nonneg n : 0 <= NQ n.
Proof. rewrite <- NQ_0. apply NQ_le. lia. Qed.
Lemma NQ_pos n : (0 < n)%nat -> 0 < NQ n.
Proof. intros. rewrite <- NQ_0. apply NQ_lt. lia. Qed.
Lemma NQ_nz n : n <> 0%nat -> NQ n <> 0.
Proof. intros H E. rewrite <- NQ_0 in E. apply NQ_inj in E. contradiction. Qed.
Lemma NQ_sub a b : (b <= a)%nat -> NQ (a - b) = NQ a - NQ b.
Proof. intros H. unfold NQ. rewrite Nat2Z.inj_sub by lia. apply ZQ_sub. Qed.

Lemma qpos_nz x : 0 < x -> x <> 0.
Proof. intros H E. subst x. exact (Qclt_not_eq _ _ H eq_refl). Qed.
Lemma qneg_nz x : x < 0 -> x <> 0.
Proof. intros H E. subst x. exact (Qclt_not_eq _ _ H eq_refl). Qed.

Lemma qc_le_antisym x y : x <= y -> y <= x -> x = y.
Proof. intros. qlra'. Qed.
Lemma qc_lt_le x y : x < y -> x <= y.
Proof. intros. qlra'. Qed.
Lemma qc_total x y : x <= y \/ y <= x.
Proof. destruct (qle_spec x y); auto. right. apply qc_lt_le, Qcnot_le_lt; auto. Qed.
Lemma qc_lt_trich x y : x < y \/ x = y \/ y < x.
Proof. destruct (Qc_dec x y) as [[H|H]|H]; auto. Qed.

Lemma qmult_le_compat_l x y z : 0 <= z -> x <= y -> z * x <= z * y.
Proof. intros. qc2q. nra. Qed.
Lemma qmult_nonneg x y : 0 <= x -> 0 <= y -> 0 <= x * y.
Proof. intros. qc2q. nra. Qed.
Lemma qmult_pos x y : 0 < x -> 0 < y -> 0 < x * y.
Proof. intros. qc2q. nra. Qed.
Lemma qinv_pos x : 0 < x -> 0 < / x.
Proof. intros H. unfold Qclt in *. rewrite this_inv. apply Qinv_lt_0_compat. exact H. Qed.
Lemma qdiv_le_iff x y z : 0 < z -> (x / z <= y <-> x <= y * z).
Proof.
  intros Hz. pose proof (qinv_pos _ Hz) as Hi.
  assert (E : z * / z = 1) by (apply Qcmult_inv_r; apply qpos_nz; auto).
  split; intros H.
  - assert (x = (x / z) * z) as -> by (field; apply qpos_nz; auto).
    qc2q. nra.
  - assert (y = (y * z) / z) as -> by (field; apply qpos_nz; auto).
    unfold Qcdiv. qc2q. nra.
Qed.
Lemma qle_div_iff x y z : 0 < z -> (y <= x / z <-> y * z <= x).
Proof.
  intros Hz. pose proof (qinv_pos _ Hz) as Hi.
  assert (E : z * / z = 1) by (apply Qcmult_inv_r; apply qpos_nz; auto).
  split; intros H.
  - assert (x = (x / z) * z) as -> by (field; apply qpos_nz; auto).
    qc2q. nra.
  - assert (y = (y * z) / z) as -> by (field; apply qpos_nz; auto).
    unfold Qcdiv. qc2q. nra.
Qed.
Lemma qdiv_0_r x : x / 0 = 0.
Proof. unfold Qcdiv. apply Qc_is_canon. rewrite this_mult. simpl. unfold Qeq; simpl. lia. Qed.
Lemma qdiv_0_l x : 0 / x = 0.
Proof. unfold Qcdiv. ring. Qed.

Lemma qabs_nonneg x : 0 <= qabs x.
Proof. unfold qabs. destruct (qle_spec 0 x) as [H|H]; auto. apply Qcnot_le_lt in H. qlra'. Qed.
Lemma qabs_le x y : qabs x <= y <-> - y <= x <= y.
Proof.
  unfold qabs. destruct (qle_spec 0 x) as [H|H]; [|apply Qcnot_le_lt in H];
  (split; [intros; split|intros [? ?]]); qlra'.
Qed.
Lemma qabs_opp x : qabs (- x) = qabs x.
Proof.
  unfold qabs. destruct (qle_spec 0 x) as [H|H], (qle_spec 0 (-x)) as [H'|H'];
  try apply Qcnot_le_lt in H; try apply Qcnot_le_lt in H'; qlra'.
Qed.

(** Sums. *)
Definition qsum (l : list Qc) : Qc := fold_right Qcplus 0 l.

Lemma qsum_nil : qsum [] = 0. Proof. reflexivity. Qed.
Lemma qsum_cons x l : qsum (x :: l) = x + qsum l. Proof. reflexivity. Qed.
Lemma qsum_app l m : qsum (l ++ m) = qsum l + qsum m.
Proof. induction l as [|x l IH]; simpl; [ring|]. rewrite IH. ring. Qed.
Lemma qsum_perm l m : Permutation l m -> qsum l = qsum m.
Proof. induction 1; simpl; try congruence. ring. Qed.
Lemma qsum_map_plus {A} (f g : A -> Qc) l :
  qsum (map (fun a => f a + g a) l) = qsum (map f l) + qsum (map g l).
Proof. induction l as [|a l IH]; simpl; [ring|]. rewrite IH. ring. Qed.
Lemma qsum_map_scale {A} (f : A -> Qc) c l :
  qsum (map (fun a => c * f a) l) = c * qsum (map f l).
Proof. induction l as [|a l IH]; simpl; [ring|]. rewrite IH. ring. Qed.
Lemma qsum_map_scale_r {A} (f : A -> Qc) c l :
  qsum (map (fun a => f a * c) l) = qsum (map f l) * c.
Proof. induction l as [|a l IH]; simpl; [ring|]. rewrite IH. ring. Qed.
Lemma qsum_map_const {A} c (l : list A) :
  qsum (map (fun _ => c) l) = c * NQ (length l).
Proof. induction l as [|a l IH]; [simpl; rewrite NQ_0; ring|]. cbn [map length]. rewrite qsum_cons, IH, NQ_S. ring. Qed.
Lemma qsum_repeat c n : qsum (repeat c n) = c * NQ n.
Proof. induction n as [|n IH]; [simpl; rewrite NQ_0; ring|]. simpl repeat. rewrite qsum_cons, IH, NQ_S. ring. Qed.
Lemma qsum_nonneg l : (forall x, In x l -> 0 <= x) -> 0 <= qsum l.
Proof.
  induction l as [|x l IH]; simpl; intros H; [apply Qcle_refl|].
  pose proof (H x (or_introl eq_refl)). pose proof (IH (fun y Hy => H y (or_intror Hy))). qlra'.
Qed.
Lemma qsum_le {A} (f g : A -> Qc) l : (forall a, In a l -> f a <= g a) -> qsum (map f l) <= qsum (map g l).
Proof.
  induction l as [|x l IH]; simpl; intros H; [apply Qcle_refl|].
  pose proof (H x (or_introl eq_refl)). pose proof (IH (fun y Hy => H y (or_intror Hy))). qlra'.
Qed.
Lemma qsum_zero_nonneg l : (forall x, In x l -> 0 <= x) -> qsum l = 0 -> forall x, In x l -> x = 0.
Proof.
  induction l as [|y l IH]; simpl; intros H E x Hx; [contradiction|].
  pose proof (qsum_nonneg l (fun z Hz => H z (or_intror Hz))) as Hn.
  pose proof (H y (or_introl eq_refl)) as Hy.
  assert (y = 0) by qlra'. assert (qsum l = 0) by qlra'.
  destruct Hx as [<-|Hx]; auto.
Qed.
Lemma qsum_map_ext {A} (f g : A -> Qc) l : (forall a, In a l -> f a = g a) -> qsum (map f l) = qsum (map g l).
Proof. intros H. f_equal. apply map_ext_in. exact H. Qed.
Lemma qsum_map_zero {A} (f : A -> Qc) l : (forall a, In a l -> f a = 0) -> qsum (map f l) = 0.
Proof. intros H. rewrite (qsum_map_ext f (fun _ => 0)) by exact H. rewrite qsum_map_const. ring. Qed.
Lemma qsum_concat l : qsum (concat l) = qsum (map qsum l).
Proof. induction l as [|x l IH]; simpl; [reflexivity|]. rewrite qsum_app, IH. reflexivity. Qed.
Lemma qsum_flat_map {A} (f : A -> list Qc) l : qsum (flat_map f l) = qsum (map (fun a => qsum (f a)) l).
Proof. induction l as [|x l IH]; simpl; [reflexivity|]. rewrite qsum_app, IH. reflexivity. Qed.
(* interchange of summation *)
Lemma qsum_swap {A B} (f : A -> B -> Qc) l m :
  qsum (map (fun a => qsum (map (f a) m)) l) = qsum (map (fun b => qsum (map (fun a => f a b) l)) m).
Proof.
  induction l as [|a l IH]; cbn [map]; rewrite ?qsum_nil, ?qsum_cons.
  - symmetry. apply qsum_map_zero. auto.
  - rewrite IH, <- qsum_map_plus. apply qsum_map_ext. intros b _. reflexivity.
Qed.

(** Boolean equality of lists of numbers, for concrete examples. *)
Fixpoint qleqb (l m : list Qc) : bool :=
  match l, m with
  | [], [] => true
  | a :: l', b :: m' => qeq a b && qleqb l' m'
  | _, _ => false
  end.
Lemma qleqb_eq l : forall m, qleqb l m = true -> l = m.
Proof.
  induction l as [|a l IH]; intros [|b m] H; try discriminate; [reflexivity|].
  simpl in H. apply andb_true_iff in H. destruct H as [H1 H2]. apply qeq_true in H1. f_equal; auto.
Qed.
