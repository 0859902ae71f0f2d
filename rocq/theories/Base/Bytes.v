(** Binary data: bytes, unsigned integers and IEEE 754 binary32 numbers, little
    endian, as numpy's [tofile] and [fromfile] store them on the usual platforms. *)
From Coq Require Import Ascii String Qpower.
From Verif.Base Require Import QcX Np.
Local Open Scope list_scope.

Definition byte := ascii.
Definition bytes := list byte.
Definition txt (s : string) : bytes := list_ascii_of_string s.
Definition code (b : byte) : Z := Z.of_nat (nat_of_ascii b).
Definition chr (z : Z) : byte := ascii_of_nat (Z.to_nat z).

(** [k] bytes, least significant first. *)
Fixpoint le_bytes (k : nat) (z : Z) : bytes :=
  match k with O => [] | S k => chr (z mod 256) :: le_bytes k (z / 256) end.
Fixpoint le_value (b : bytes) : Z :=
  match b with [] => 0 | x :: b => code x + 256 * le_value b end.

Lemma code_chr z : (0 <= z < 256)%Z -> code (chr z) = z.
Proof. intros H. unfold code, chr. rewrite nat_ascii_embedding by lia. apply Z2Nat.id. lia. Qed.
Lemma code_range b : (0 <= code b < 256)%Z.
Proof. unfold code. pose proof (nat_ascii_bounded b). lia. Qed.
Lemma le_bytes_length k : forall z, length (le_bytes k z) = k.
Proof. induction k; intros z; simpl; [reflexivity|]. rewrite IHk. reflexivity. Qed.
Lemma le_value_bytes k : forall z, (0 <= z < 256 ^ Z.of_nat k)%Z -> le_value (le_bytes k z) = z.
Proof.
  induction k as [|k IH]; intros z H; [simpl in *; lia|].
  assert (256 ^ Z.of_nat (S k) = 256 * 256 ^ Z.of_nat k)%Z as E. { rewrite Nat2Z.inj_succ, Z.pow_succ_r by lia. reflexivity. }
  rewrite E in H. cbn [le_bytes le_value]. rewrite code_chr by (apply Z.mod_pos_bound; lia). rewrite IH.
  - pose proof (Z.div_mod z 256). lia.
  - split; [apply Z.div_pos; lia|]. apply Z.div_lt_upper_bound; lia.
Qed.
Lemma le_value_range b : (0 <= le_value b < 256 ^ Z.of_nat (length b))%Z.
Proof.
  induction b as [|x b IH]; cbn [le_value length]; [simpl; lia|]. rewrite Nat2Z.inj_succ, Z.pow_succ_r by lia. pose proof (code_range x). lia.
Qed.

(** ** binary32 *)
Definition pow2 (e : Z) : Qc := Q2Qc (Qpower (2 # 1) e).
(** floor(log2 a) for a > 0. *)
Definition flog2 (a : Qc) : Z :=
  let e := (Z.log2 (Qnum (this a)) - Z.log2 (Z.pos (Qden (this a))))%Z in if qle (pow2 e) a then e else (e - 1)%Z.
(** The 31 bits of exponent and mantissa of a >= 0: round to nearest, ties to even.
    The mantissa is added to, not or'ed into, the exponent field, so that its
    leading one (none in a subnormal number) increases the exponent, as does its overflow. *)
Definition f32_mag (a : Qc) : Z :=
  if qeq a 0 then 0%Z else let e := Z.max (-126) (flog2 a) in ((e + 126) * 2 ^ 23 + qround (a / pow2 (e - 23)))%Z.
(** Conversion to float32; infinite if too large.  There is no negative zero. *)
Definition f32_bits (x : Qc) : Z :=
  ((if qlt x 0 then 2 ^ 31 else 0) + Z.min (f32_mag (qabs x)) (255 * 2 ^ 23))%Z.
Definition mag_value (m : Z) : Qc :=
  let e := (m / 2 ^ 23)%Z in let f := (m mod 2 ^ 23)%Z in
  if (e =? 0)%Z then ZQ f * pow2 (-149) else ZQ (f + 2 ^ 23) * pow2 (e - 150).
Definition f32_value (b : Z) : ext :=
  let neg := (2 ^ 31 <=? b)%Z in let m := (b mod 2 ^ 31)%Z in
  if (m <? 255 * 2 ^ 23)%Z then Fin (if neg then - mag_value m else mag_value m)
  else if (m =? 255 * 2 ^ 23)%Z then (if neg then NInf else PInf) else NaN.

(** *** Facts *)
Lemma pow2_add a b : pow2 (a + b) = pow2 a * pow2 b.
Proof.
  apply Qc_is_canon. rewrite this_mult. unfold pow2. rewrite !this_Q2Qc. apply Qpower_plus. intro H. discriminate.
Qed.
Lemma pow2_pos e : 0 < pow2 e.
Proof. unfold Qclt, pow2. rewrite !this_Q2Qc. apply Qpower_0_lt. reflexivity. Qed.
Lemma pow2_0 : pow2 0 = 1. Proof. apply Qc_is_canon. reflexivity. Qed.
Lemma pow2_ZQ e : (0 <= e)%Z -> pow2 e = ZQ (2 ^ e).
Proof.
  intros H. apply Qc_is_canon. unfold pow2, ZQ. rewrite !this_Q2Qc. change (2 # 1)%Q with (inject_Z 2). symmetry. apply Zpower_Qpower. assumption.
Qed.
Lemma pow2_le a b : (a <= b)%Z -> pow2 a <= pow2 b.
Proof.
  intros H. replace b with (a + (b - a))%Z by lia. rewrite pow2_add, (pow2_ZQ (b - a)) by lia.
  assert (1 <= ZQ (2 ^ (b - a))). { rewrite <- ZQ_1. apply ZQ_le. pose proof (Z.pow_pos_nonneg 2 (b - a)). lia. }
  pose proof (pow2_pos a). rewrite <- (Qcmult_1_r (pow2 a)) at 1. apply qmult_le_compat_l; [apply Qclt_le_weak|]; assumption.
Qed.

Lemma pow2_S e : pow2 (e + 1) = ZQ 2 * pow2 e.
Proof. rewrite pow2_add. change (pow2 1) with (ZQ 2). ring. Qed.
Lemma pow2_inj_lt a b : pow2 a < pow2 b -> (a < b)%Z.
Proof. intros H. destruct (Z_lt_ge_dec a b) as [L|L]; [assumption|exfalso]. pose proof (pow2_le b a ltac:(lia)). qlra. Qed.
Lemma flog2_spec a : 0 < a -> pow2 (flog2 a) <= a /\ a < pow2 (flog2 a + 1).
Proof.
  intros Ha. unfold flog2. set (n := Qnum (this a)). set (d := Z.pos (Qden (this a))).
  assert (0 < n)%Z as Hn. { unfold Qclt, Qlt in Ha. simpl in Ha. unfold n. lia. }
  assert (0 < d)%Z as Hd by (unfold d; lia).
  assert (a * ZQ d = ZQ n) as E.
  { apply Qc_is_canon. rewrite this_mult. unfold ZQ. rewrite !this_Q2Qc. unfold n, d. destruct (this a) as [p q]. unfold Qeq. simpl. lia. }
  destruct (Z.log2_spec n Hn) as [N1 N2]. destruct (Z.log2_spec d Hd) as [D1 D2].
  set (ln := Z.log2 n) in *. set (ld := Z.log2 d) in *.
  assert (0 <= ln)%Z as Pn by apply Z.log2_nonneg. assert (0 <= ld)%Z as Pd by apply Z.log2_nonneg.
  apply ZQ_le in N1, D1. apply ZQ_lt in N2, D2. rewrite <- pow2_ZQ in N1, N2, D1, D2 by lia.
  rewrite <- !Z.add_1_r in *. rewrite pow2_S in N2, D2.
  assert (0 < ZQ d) as Pd' by (rewrite <- ZQ_0; apply ZQ_lt; assumption).
  pose proof (pow2_pos ln) as Q1. pose proof (pow2_pos ld) as Q2. pose proof (pow2_pos (ln - ld)) as Q3.
  assert (pow2 ln = pow2 (ln - ld) * pow2 ld) as E1 by (rewrite <- pow2_add; f_equal; lia).
  set (u := pow2 (ln - ld)) in *. set (w := pow2 ld) in *.
  assert (u < ZQ 2 * a) as L1.
  { (* u * w <= n = a d < a * 2 w *) apply Qcnot_le_lt. intros C.
    assert (ZQ 2 * a * w <= u * w) by (rewrite (Qcmult_comm _ w), (Qcmult_comm u w); apply qmult_le_compat_l; [apply Qclt_le_weak|]; assumption).
    assert (a * ZQ d < a * (ZQ 2 * w)).
    { rewrite !(Qcmult_comm a). apply Qcmult_lt_compat_r; assumption. }
    rewrite E in H0. rewrite E1 in N1. replace (a * (ZQ 2 * w)) with (ZQ 2 * a * w) in H0 by ring.
    generalize dependent (ZQ 2 * a * w). generalize dependent (u * w). intros. qlra. }
  assert (a < ZQ 2 * u) as L2.
  { apply Qcnot_le_lt. intros C.
    assert (ZQ 2 * u * ZQ d <= a * ZQ d) by (rewrite !(Qcmult_comm _ (ZQ d)); apply qmult_le_compat_l; [apply Qclt_le_weak|]; assumption).
    assert (ZQ 2 * u * w <= ZQ 2 * u * ZQ d) by (apply qmult_le_compat_l; [apply qmult_nonneg; [|apply Qclt_le_weak; assumption]; rewrite <- ZQ_0; apply ZQ_le; lia|assumption]).
    rewrite E in H. rewrite E1 in N2. replace (ZQ 2 * u * w) with (ZQ 2 * (u * w)) in H0 by ring.
    generalize dependent (ZQ 2 * u * ZQ d). generalize dependent (u * w). intros. qlra. }
  destruct (qle_spec u a) as [L|L].
  - split; [exact L|]. rewrite pow2_S. exact L2.
  - apply Qcnot_le_lt in L. replace (ln - ld - 1 + 1)%Z with (ln - ld)%Z by lia. split; [|exact L].
    assert (u = ZQ 2 * pow2 (ln - ld - 1)) as E2 by (rewrite <- pow2_S; unfold u; f_equal; lia). rewrite E2 in L1. clear -L1. generalize dependent (pow2 (ln - ld - 1)). intros. qlra'.
Qed.
Lemma qround_le q z : q <= ZQ z -> (qround q <= z)%Z.
Proof.
  intros H. destruct (Z_le_gt_dec (qround q) z) as [L|L]; [assumption|exfalso]. revert L. unfold qround. cbv zeta. destruct (qfloor_spec q) as [F1 F2].
  assert (ZQ (qfloor q) <= ZQ z) as L0 by qlra'. apply (proj1 (ZQ_le _ _)) in L0.
  destruct (Z.eq_dec (qfloor q) z) as [E|E].
  - assert (q = ZQ z) as -> by (rewrite <- E in *; apply qc_le_antisym; assumption). rewrite qfloor_ZQ in *.
    replace (ZQ z - ZQ z) with 0 by ring. replace (qlt 0 (Q2Qc (1 # 2))) with true by (symmetry; apply qlt_true; reflexivity). lia.
  - destruct (qlt _ _); [lia|]. destruct (qlt _ _); [lia|]. destruct (Z.even _); lia.
Qed.
Lemma qround_ge q z : ZQ z <= q -> (z <= qround q)%Z.
Proof.
  intros H. unfold qround. cbv zeta. destruct (qfloor_spec q) as [F1 F2]. assert (ZQ z < ZQ (qfloor q + 1)) as L by (rewrite ZQ_add, ZQ_1; qlra'). apply (proj1 (ZQ_lt _ _)) in L.
  destruct (qlt _ _); [lia|]. destruct (qlt _ _); [lia|]. destruct (Z.even _); lia.
Qed.

(** The exponent used for a > 0. *)
Definition f32_e (a : Qc) : Z := Z.max (-126) (flog2 a).
Lemma f32_e_spec a : 0 < a -> let e := f32_e a in let q := a / pow2 (e - 23) in
  (-126 <= e)%Z /\ 0 <= q /\ q < ZQ (2 ^ 24) /\ ((-126 < e)%Z -> ZQ (2 ^ 23) <= q /\ pow2 e <= a).
Proof.
  intros Ha e q. destruct (flog2_spec a Ha) as [L1 L2]. unfold e, f32_e in *. set (k := flog2 a) in *.
  pose proof (pow2_pos (Z.max (-126) k - 23)) as Pu. set (u := pow2 (Z.max (-126) k - 23)) in *.
  assert (pow2 (Z.max (-126) k + 1) = ZQ (2 ^ 24) * u) as E1.
  { rewrite <- pow2_ZQ by lia. unfold u. rewrite <- pow2_add. f_equal. lia. }
  assert (pow2 (Z.max (-126) k) = ZQ (2 ^ 23) * u) as E2.
  { rewrite <- pow2_ZQ by lia. unfold u. rewrite <- pow2_add. f_equal. lia. }
  assert (q * u = a) as Eq. { unfold q. field. apply qpos_nz. exact Pu. }
  split; [lia|]. split; [unfold q; apply qmult_nonneg; [apply Qclt_le_weak|apply Qclt_le_weak, qinv_pos]; assumption|].
  split.
  - assert (a < pow2 (Z.max (-126) k + 1)) as L3. { eapply Qclt_le_trans; [exact L2|]. apply pow2_le. lia. }
    rewrite E1, <- Eq in L3. apply Qcnot_le_lt. intros C. assert (u * ZQ (2 ^ 24) <= u * q) by (apply qmult_le_compat_l; [apply Qclt_le_weak|]; assumption).
    rewrite (Qcmult_comm u), (Qcmult_comm u) in H. revert L3. apply Qcle_not_lt. assumption.
  - intros H. replace (Z.max (-126) k) with k in * by lia. split; [|assumption].
    apply (qle_div_iff a (ZQ (2 ^ 23)) u Pu). rewrite <- E2. assumption.
Qed.
Lemma f32_mag_value a : 0 < a -> let e := f32_e a in let m := qround (a / pow2 (e - 23)) in
  (0 <= m <= 2 ^ 24)%Z /\ (0 <= f32_mag a)%Z /\ f32_mag a = ((e + 126) * 2 ^ 23 + m)%Z /\ mag_value (f32_mag a) = ZQ m * pow2 (e - 23).
Proof.
  intros Ha e m. destruct (f32_e_spec a Ha) as (E0 & Q0 & Q1 & Q2). fold e in E0, Q0, Q1, Q2.
  assert (0 <= m)%Z as M0 by (apply qround_ge; assumption). assert (m <= 2 ^ 24)%Z as M1 by (apply qround_le, Qclt_le_weak; assumption).
  assert (f32_mag a = (e + 126) * 2 ^ 23 + m)%Z as E. { unfold f32_mag. destruct (qeq_spec a 0) as [C|_]; [exfalso; subst; apply (qpos_nz _ Ha); reflexivity|reflexivity]. }
  split; [lia|]. split; [rewrite E; lia|]. split; [assumption|]. rewrite E.
  assert (-126 < e -> 2 ^ 23 <= m)%Z as M2. { intros H. apply qround_ge. apply Q2. assumption. }
  unfold mag_value. clearbody m e. destruct (Z_lt_ge_dec m (2 ^ 23)) as [C|C]; [|destruct (Z.eq_dec m (2 ^ 24)) as [C2|C2]].
  - assert (e = -126)%Z as -> by lia. replace ((-126 + 126) * 2 ^ 23 + m)%Z with m by lia. rewrite Z.div_small, Z.mod_small by lia. reflexivity.
  - subst m. replace ((e + 126) * 2 ^ 23 + 2 ^ 24)%Z with (0 + (e + 128) * 2 ^ 23)%Z by lia. rewrite Z.div_add, Z.mod_add by lia.
    change (0 / 2 ^ 23)%Z with 0%Z. change (0 mod 2 ^ 23)%Z with 0%Z. destruct (Z.eqb_spec (0 + (e + 128)) 0); [lia|].
    rewrite <- !pow2_ZQ by lia. replace (pow2 24) with (pow2 23 * pow2 1) by (rewrite <- pow2_add; reflexivity).
    change (0 + 2 ^ 23)%Z with (2 ^ 23)%Z. rewrite <- pow2_ZQ by lia. replace (0 + (e + 128) - 150)%Z with (1 + (e - 23))%Z by lia. rewrite (pow2_add 1). ring.
  - replace ((e + 126) * 2 ^ 23 + m)%Z with ((m - 2 ^ 23) + (e + 127) * 2 ^ 23)%Z by lia. rewrite Z.div_add, Z.mod_add by lia.
    rewrite Z.div_small, Z.mod_small by lia. destruct (Z.eqb_spec (0 + (e + 127)) 0); [lia|]. f_equal; f_equal; lia.
Qed.

(** [y] is [x] to single precision: relative error at most 2^-24 (or absolute error
    at most 2^-150, for numbers below 2^-126). *)
Definition single_near (x y : Qc) : Prop := qabs (y - x) <= pow2 (-24) * qabs x \/ qabs (y - x) <= pow2 (-150).
(** The numbers which have an exact single precision representation. *)
Definition is_single (x : Qc) : Prop := exists m e, (Z.abs m < 2 ^ 24)%Z /\ (-149 <= e <= 104)%Z /\ x = ZQ m * pow2 e.
(** Largest single precision number. *)
Definition single_max : Qc := ZQ (2 ^ 24 - 1) * pow2 104.

Lemma qabs_mult_pos a b : 0 < b -> qabs (a * b) = qabs a * b.
Proof.
  intros H. unfold qabs. destruct (qle_spec 0 a) as [A|A].
  - destruct (qle_spec 0 (a * b)) as [B|B]; [reflexivity|]. exfalso. apply B. apply qmult_nonneg; [|apply Qclt_le_weak]; assumption.
  - apply Qcnot_le_lt in A. destruct (qle_spec 0 (a * b)) as [B|B]; [|ring]. exfalso.
    assert (0 < - a) as A' by qlra'. pose proof (qmult_pos _ _ A' H) as C. replace (- a * b) with (- (a * b)) in C by ring. qlra.
Qed.
Lemma f32_mag_finite a : 0 < a -> a <= single_max -> (f32_mag a < 255 * 2 ^ 23)%Z.
Proof.
  intros Ha Hm. destruct (f32_mag_value a Ha) as (M & P & E & _). destruct (f32_e_spec a Ha) as (E0 & Q0 & Q1 & Q2).
  set (e := f32_e a) in *. set (m := qround (a / pow2 (e - 23))) in *. rewrite E.
  assert (e <= 127)%Z as He.
  { destruct (Z_le_gt_dec e 127) as [L|L]; [assumption|exfalso]. destruct Q2 as [_ Q2]; [lia|].
    assert (pow2 128 <= a) as C. { eapply Qcle_trans; [apply pow2_le|exact Q2]. lia. }
    unfold single_max in Hm. assert (ZQ (2 ^ 24 - 1) * pow2 104 < pow2 128) as D.
    { replace (pow2 128) with (ZQ (2 ^ 24) * pow2 104) by (rewrite <- pow2_ZQ by lia; rewrite <- pow2_add; reflexivity).
      apply Qcmult_lt_compat_r; [apply pow2_pos|apply ZQ_lt; lia]. }
    apply (Qclt_not_le _ _ D). eapply Qcle_trans; eassumption. }
  destruct (Z.eq_dec e 127) as [C|C]; [|lia].
  assert (m <= 2 ^ 24 - 1)%Z; [|lia]. apply qround_le. apply qdiv_le_iff; [apply pow2_pos|]. rewrite C. exact Hm.
Qed.
Lemma f32_value_bits x : qabs x <= single_max ->
  f32_value (f32_bits x) = Fin (if qlt x 0 then - mag_value (f32_mag (qabs x)) else mag_value (f32_mag (qabs x))) /\
  (0 <= f32_mag (qabs x) < 255 * 2 ^ 23)%Z.
Proof.
  intros H. assert (0 <= f32_mag (qabs x) < 255 * 2 ^ 23)%Z as R.
  { destruct (qeq_spec (qabs x) 0) as [E|E].
    - rewrite E. unfold f32_mag. rewrite qeq_refl. lia.
    - assert (0 < qabs x) as P. { destruct (Qcle_lt_or_eq _ _ (qabs_nonneg x)); [assumption|congruence]. }
      split; [apply (f32_mag_value _ P)|apply f32_mag_finite; assumption]. }
  split; [|assumption]. unfold f32_value, f32_bits. rewrite Z.min_l by lia. set (m := f32_mag (qabs x)) in *.
  destruct (qlt x 0).
  - replace (2 ^ 31 + m)%Z with (m + 1 * 2 ^ 31)%Z by lia. rewrite Z.mod_add by lia. rewrite Z.mod_small by lia.
    destruct (Z.leb_spec (2 ^ 31) (m + 1 * 2 ^ 31)); [|lia]. destruct (Z.ltb_spec m (255 * 2 ^ 23)); [reflexivity|lia].
  - rewrite Z.add_0_l, Z.mod_small by lia. destruct (Z.leb_spec (2 ^ 31) m); [lia|]. destruct (Z.ltb_spec m (255 * 2 ^ 23)); [reflexivity|lia].
Qed.
Lemma f32_bits_range x : (0 <= f32_bits x < 2 ^ 32)%Z.
Proof.
  unfold f32_bits. assert (0 <= f32_mag (qabs x))%Z.
  { destruct (qeq_spec (qabs x) 0) as [E|E]; [rewrite E; unfold f32_mag; rewrite qeq_refl; lia|].
    assert (0 < qabs x) as P. { destruct (Qcle_lt_or_eq _ _ (qabs_nonneg x)); [assumption|congruence]. } apply (f32_mag_value _ P). }
  destruct (qlt x 0); lia.
Qed.
Lemma mag_near a : 0 <= a -> single_near a (mag_value (f32_mag a)).
Proof.
  intros H. destruct (qeq_spec a 0) as [E|E].
  - subst. left. replace (mag_value (f32_mag 0)) with 0 by (apply qeq_true; vm_compute; reflexivity). replace (0 - 0) with 0 by ring.
    replace (qabs 0) with 0 by (apply qeq_true; vm_compute; reflexivity). rewrite Qcmult_0_r. apply Qcle_refl.
  - assert (0 < a) as Ha. { destruct (Qcle_lt_or_eq _ _ H); [assumption|congruence]. }
    destruct (f32_mag_value a Ha) as (M & _ & _ & V). destruct (f32_e_spec a Ha) as (E0 & Q0 & Q1 & Q2). rewrite V. set (e := f32_e a) in *.
    set (u := pow2 (e - 23)) in *. assert (0 < u) as Pu by apply pow2_pos.
    pose proof (qround_near (a / u)) as N.
    assert (qabs (ZQ (qround (a / u)) * u - a) <= Q2Qc (1 # 2) * u) as N'.
    { replace (ZQ (qround (a / u)) * u - a) with ((- (a / u - ZQ (qround (a / u)))) * u) by (field; apply qpos_nz; assumption).
      rewrite qabs_mult_pos, qabs_opp by assumption. rewrite !(Qcmult_comm _ u). apply qmult_le_compat_l; [apply Qclt_le_weak|]; assumption. }
    assert (Q2Qc (1 # 2) * u = pow2 (e - 24)) as Eu.
    { unfold u. replace (e - 23)%Z with ((e - 24) + 1)%Z by lia. rewrite pow2_S, Qcmult_assoc.
      replace (Q2Qc (1 # 2) * ZQ 2) with 1 by (apply qeq_true; vm_compute; reflexivity). ring. }
    rewrite Eu in N'. destruct (Z.eq_dec e (-126)) as [C|C].
    + right. rewrite C in N'. exact N'.
    + left. eapply Qcle_trans; [exact N'|]. replace (e - 24)%Z with (-24 + e)%Z by lia. rewrite pow2_add.
      apply qmult_le_compat_l; [apply Qclt_le_weak, pow2_pos|]. destruct Q2 as [_ Q2]; [lia|].
      unfold qabs. destruct (qle_spec 0 a); [assumption|contradiction].
Qed.
Theorem f32_near x : qabs x <= single_max -> exists y, f32_value (f32_bits x) = Fin y /\ single_near x y.
Proof.
  intros H. destruct (f32_value_bits x H) as [E _]. rewrite E. eexists. split; [reflexivity|].
  pose proof (mag_near _ (qabs_nonneg x)) as N. unfold single_near in *.
  assert (qabs (qabs x) = qabs x) as A. { unfold qabs at 1. destruct (qle_spec 0 (qabs x)) as [_|C]; [reflexivity|]. exfalso. apply C, qabs_nonneg. }
  rewrite A in N. set (v := mag_value (f32_mag (qabs x))) in *.
  destruct (qlt_spec x 0) as [L|L].
  - assert (qabs x = - x) as Ex. { unfold qabs. destruct (qle_spec 0 x); [exfalso; qlra|reflexivity]. }
    rewrite Ex in N at 1 3. rewrite Ex in N. replace (- v - x) with (- (v - - x)) by ring. rewrite qabs_opp. rewrite Ex. exact N.
  - assert (qabs x = x) as Ex. { unfold qabs. destruct (qle_spec 0 x) as [_|C]; [reflexivity|]. exfalso. apply C. apply Qcnot_lt_le. assumption. }
    rewrite Ex in N. rewrite Ex. exact N.
Qed.
Lemma mag_exact a m e : 0 <= a -> (Z.abs m < 2 ^ 24)%Z -> (-149 <= e <= 104)%Z -> a = ZQ m * pow2 e -> mag_value (f32_mag a) = a.
Proof.
  intros H Hm He Ea. destruct (qeq_spec a 0) as [E|E]; [rewrite E; apply qeq_true; vm_compute; reflexivity|].
  assert (0 < a) as Ha. { destruct (Qcle_lt_or_eq _ _ H); [assumption|congruence]. }
  destruct (f32_mag_value a Ha) as (_ & _ & _ & V). rewrite V. destruct (flog2_spec a Ha) as [L1 L2].
  pose proof (pow2_pos e) as Pe.
  assert (0 < m)%Z as Pm. { destruct (Z_lt_le_dec 0 m) as [L|L]; [assumption|exfalso]. 
    assert (ZQ m <= 0) by (rewrite <- ZQ_0; apply ZQ_le; assumption). assert (0 <= (- ZQ m) * pow2 e) by (apply qmult_nonneg; [qlra'|apply Qclt_le_weak; assumption]).
    replace (- ZQ m * pow2 e) with (- a) in H1 by (rewrite Ea; ring). qlra. }
  assert (f32_e a - 23 <= e)%Z as K.
  { unfold f32_e. assert (flog2 a < 24 + e)%Z; [|lia]. apply pow2_inj_lt. eapply Qcle_lt_trans; [exact L1|]. rewrite Ea, pow2_add.
    apply Qcmult_lt_compat_r; [assumption|]. rewrite pow2_ZQ by lia. apply ZQ_lt. lia. }
  clear V. set (k := (f32_e a - 23)%Z) in *. clearbody k.
  assert (a / pow2 k = ZQ (m * 2 ^ (e - k))) as ->.
  { rewrite ZQ_mul, <- pow2_ZQ by lia. rewrite Ea. replace (pow2 e) with (pow2 (e - k) * pow2 k) by (rewrite <- pow2_add; f_equal; lia). field. apply qpos_nz, pow2_pos. }
  rewrite qround_ZQ, ZQ_mul, <- pow2_ZQ by lia. rewrite <- Qcmult_assoc, <- pow2_add. rewrite Ea. f_equal. f_equal. lia.
Qed.
Lemma single_le_max x : is_single x -> qabs x <= single_max.
Proof.
  intros (m & e & Hm & He & ->). rewrite qabs_mult_pos by apply pow2_pos. unfold single_max.
  assert (qabs (ZQ m) <= ZQ (2 ^ 24 - 1)) as L. { apply qabs_le. rewrite <- ZQ_opp. split; apply ZQ_le; lia. }
  eapply Qcle_trans with (ZQ (2 ^ 24 - 1) * pow2 e).
  - rewrite !(Qcmult_comm _ (pow2 e)). apply qmult_le_compat_l; [apply Qclt_le_weak, pow2_pos|exact L].
  - apply qmult_le_compat_l; [rewrite <- ZQ_0; apply ZQ_le; lia|]. apply pow2_le. lia.
Qed.
Theorem f32_exact x : is_single x -> f32_value (f32_bits x) = Fin x.
Proof.
  intros Hx. destruct (f32_value_bits x (single_le_max x Hx)) as [E _]. rewrite E. f_equal. destruct Hx as (m & e & Hm & He & Ex).
  destruct (qlt_spec x 0) as [L|L].
  - assert (qabs x = - x) as Eq. { unfold qabs. destruct (qle_spec 0 x); [exfalso; qlra|reflexivity]. }
    rewrite Eq. rewrite (mag_exact (- x) (- m) e); [ring|qlra'|lia|lia|]. rewrite Ex, ZQ_opp. ring.
  - assert (qabs x = x) as Eq. { unfold qabs. destruct (qle_spec 0 x) as [_|C]; [reflexivity|]. exfalso. apply C. apply Qcnot_lt_le. assumption. }
    rewrite Eq. apply (mag_exact x m e); [apply Qcnot_lt_le; assumption|lia|lia|assumption].
Qed.
(** What is stored is a single precision number. *)
Theorem bits_single b y : f32_value b = Fin y -> is_single y.
Proof.
  intros H. assert (forall m, (0 <= m < 255 * 2 ^ 23)%Z -> is_single (mag_value m)) as K.
  { intros m Hm. unfold mag_value. assert (0 <= m / 2 ^ 23 < 255)%Z by (split; [apply Z.div_pos; lia|apply Z.div_lt_upper_bound; lia]).
    pose proof (Z.mod_pos_bound m (2 ^ 23) ltac:(lia)). destruct (Z.eqb_spec (m / 2 ^ 23) 0).
    - exists (m mod 2 ^ 23)%Z, (-149)%Z. split; [lia|]. split; [lia|reflexivity].
    - exists (m mod 2 ^ 23 + 2 ^ 23)%Z, (m / 2 ^ 23 - 150)%Z. split; [lia|]. split; [lia|reflexivity]. }
  unfold f32_value in H. pose proof (Z.mod_pos_bound b (2 ^ 31) ltac:(lia)).
  destruct (Z.ltb_spec (b mod 2 ^ 31) (255 * 2 ^ 23)) as [L|L]; [|destruct (_ =? _)%Z; [destruct (_ <=? _)%Z|]; discriminate].
  apply (f_equal (fun x => match x with Fin q => q | _ => 0 end)) in H. rewrite <- H. destruct (2 ^ 31 <=? b)%Z; [|apply K; lia].
  destruct (K (b mod 2 ^ 31)%Z ltac:(lia)) as (m & e & H1 & H2 & H3). exists (- m)%Z, e. split; [lia|]. split; [lia|]. rewrite H3, ZQ_opp. ring.
Qed.
Theorem f32_is_single x y : f32_value (f32_bits x) = Fin y -> is_single y.
Proof. apply bits_single. Qed.
