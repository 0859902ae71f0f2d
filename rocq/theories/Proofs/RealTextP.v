(** Text of real numbers: it is read as the nearest number of the given digits. *)
From Coq Require Import String Ascii Decimal DecimalString Reals Qreals.
From Verif.Base Require Import QcX QcR Res Np Bytes.
From Verif.Model Require Import Utils Text Simple PyText Table RealText.
From Verif.Spec Require Import TableSpec CliSpec RealTextSpec.
From Verif.Proofs Require Import UtilsFiles TextP SimpleP TableP PyTextP.
From Coq Require Import Lra.
Local Open Scope list_scope.
Local Open Scope R_scope.
Local Notation length := List.length.

(** ** Rounding *)
Lemma IZR_int_part x : IZR (Int_part x) <= x < IZR (Int_part x) + 1.
Proof. pose proof (base_Int_part x) as [A B]. split; lra. Qed.
Lemma int_part_unique x z : IZR z <= x < IZR z + 1 -> Int_part x = z.
Proof.
  intros [A B]. pose proof (IZR_int_part x) as [C D].
  assert (IZR z < IZR (Int_part x + 1)) as E by (rewrite plus_IZR; lra). assert (IZR (Int_part x) < IZR (z + 1)) as F by (rewrite plus_IZR; lra).
  apply lt_IZR in E, F. lia.
Qed.
Lemma QR_ZQ z : QR (ZQ z) = IZR z.
Proof. unfold QR. rewrite (Qeq_eqR _ _ (this_ZQ z)). unfold Q2R, inject_Z. cbn. lra. Qed.
Lemma QR_half : QR (Q2Qc (1 # 2)) = 1 / 2.
Proof. unfold QR. rewrite (Qeq_eqR _ _ (this_Q2Qc (1 # 2))). unfold Q2R. cbn. lra. Qed.
Lemma int_part_QR q : Int_part (QR q) = qfloor q.
Proof.
  apply int_part_unique. destruct (qfloor_spec q) as [A B]. apply (proj1 (QR_le _ _)) in A. apply (proj1 (QR_lt _ _)) in B.
  rewrite QR_add, QR_1, QR_ZQ in B. rewrite QR_ZQ in A. split; assumption.
Qed.
Lemma rround_QR q : rround (QR q) = qround q.
Proof.
  unfold rround, qround. rewrite int_part_QR. set (f := qfloor q). cbv zeta.
  assert (QR (q - ZQ f)%Qc = QR q - IZR f) as E by (rewrite QR_sub, QR_ZQ; reflexivity).
  assert (forall a b, (if Rlt_dec (QR a) (QR b) then true else false) = qlt a b) as L.
  { intros a b. destruct (qlt_spec a b) as [H|H]; destruct (Rlt_dec (QR a) (QR b)) as [K|K]; try reflexivity; exfalso; [apply K, (proj1 (QR_lt _ _)), H|apply H, (proj2 (QR_lt _ _)), K]. }
  pose proof (L (q - ZQ f)%Qc (Q2Qc (1 # 2))) as L1. pose proof (L (Q2Qc (1 # 2)) (q - ZQ f)%Qc) as L2. rewrite E, QR_half in L1, L2.
  rewrite <- L1, <- L2. destruct (Rlt_dec (QR q - IZR f) (1 / 2)); [reflexivity|]. destruct (Rlt_dec (1 / 2) (QR q - IZR f)); reflexivity.
Qed.
Lemma rround_near x : Rabs (x - IZR (rround x)) <= 1 / 2.
Proof.
  unfold rround. pose proof (IZR_int_part x) as [A B]. set (f := Int_part x) in *. cbv zeta. 
  destruct (Rlt_dec (x - IZR f) (1 / 2)); [apply Rabs_le; lra|]. destruct (Rlt_dec (1 / 2) (x - IZR f)); [rewrite plus_IZR; apply Rabs_le; lra|].
  destruct (Z.even f); [|rewrite plus_IZR]; apply Rabs_le; lra.
Qed.
Lemma rround_nearest x z : Rabs (x - IZR (rround x)) <= Rabs (x - IZR z).
Proof.
  pose proof (rround_near x) as N. destruct (Z.eq_dec z (rround x)) as [-> |D]; [apply Rle_refl|]. set (r := rround x) in *.
  eapply Rle_trans; [exact N|]. assert (- (1 / 2) <= x - IZR r <= 1 / 2) as K by (unfold Rabs in N; destruct (Rcase_abs _); lra).
  destruct (Z_lt_le_dec z r) as [L|L].
  - assert (IZR z <= IZR r - 1) by (rewrite <- minus_IZR; apply IZR_le; lia). rewrite Rabs_right; lra.
  - assert (IZR r + 1 <= IZR z) by (rewrite <- plus_IZR; apply IZR_le; lia). rewrite Rabs_left1; lra.
Qed.
Lemma rround_mono_Z x z : IZR z <= x -> (z <= rround x)%Z.
Proof.
  intros H. unfold rround. pose proof (IZR_int_part x) as [A B]. set (f := Int_part x) in *. cbv zeta.
  assert (z <= f)%Z. { assert (IZR z < IZR (f + 1)) as E by (rewrite plus_IZR; lra). apply lt_IZR in E. lia. }
  destruct (Rlt_dec _ _); [lia|]. destruct (Rlt_dec _ _); [lia|]. destruct (Z.even f); lia.
Qed.
Lemma rround_le_Z x z : x <= IZR z -> (rround x <= z)%Z.
Proof.
  intros H. destruct (Z_lt_le_dec z (rround x)) as [C|C]; [|exact C]. exfalso. pose proof (rround_nearest x z) as N.
  assert (IZR z + 1 <= IZR (rround x)) by (rewrite <- plus_IZR; apply IZR_le; lia).
  rewrite (Rabs_left1 (x - IZR z)) in N by lra. rewrite Rabs_left1 in N by lra. lra.
Qed.

(** ** Fixed decimals *)
Lemma fmt_fixedR_QR d q : fmt_fixedR d (QR q) = fmt_fixed d q.
Proof.
  unfold fmt_fixedR, fmt_fixed.
  assert (Rabs (QR q) = QR (qabs q)) as ->.
  { unfold qabs. destruct (qle_spec 0 q) as [H|H]; [apply (proj1 (QR_le _ _)) in H; rewrite QR_0 in H; apply Rabs_right; lra|].
    apply Qcnot_le_lt in H. apply (proj1 (QR_lt _ _)) in H. rewrite QR_0 in H. rewrite QR_opp. apply Rabs_left. exact H. }
  rewrite <- (QR_ZQ (10 ^ Z.of_nat d)), <- QR_mul, rround_QR. destruct (qlt_spec q 0) as [H|H]; destruct (Rlt_dec (QR q) 0) as [K|K]; try reflexivity; exfalso.
  - apply K. rewrite <- QR_0. apply (proj1 (QR_lt _ _)), H.
  - apply H. apply (proj2 (QR_lt _ _)). rewrite QR_0. exact K.
Qed.
(** The number which is shown. *)
Definition round_decR (d : nat) (x : R) : Qc :=
  let v := (ZQ (rround (Rabs x * IZR (10 ^ Z.of_nat d))) / ZQ (10 ^ Z.of_nat d))%Qc in if Rlt_dec x 0 then (- v)%Qc else v.
(** A rational number with the same text. *)
Lemma fmt_fixedR_as d x : (0 < d)%nat -> exists q, fmt_fixedR d x = fmt_fixed d q /\ round_decR d x = round_dec d q.
Proof.
  intros Hd. unfold fmt_fixedR, round_decR. set (P := (10 ^ Z.of_nat d)%Z). set (n := rround (Rabs x * IZR P)).
  pose proof (pow10_pos d) as HP. fold P in HP. pose proof (unit_pos d) as U. fold P in U. pose proof (qpos_nz _ U) as NZ.
  assert (0 <= n)%Z as Hn. { apply rround_mono_Z. apply Rmult_le_pos; [apply Rabs_pos|]. apply IZR_le. lia. }
  assert (forall q, (0 <= q)%Qc -> qabs q = q) as AP by (intros q Hq; unfold qabs; destruct (qle_spec 0 q); [reflexivity|contradiction]).
  assert (forall q, (q <= 0)%Qc -> qabs q = (- q)%Qc) as AN by (intros q Hq; rewrite <- qabs_opp; apply AP; qlra').
  assert (0 <= ZQ n)%Qc as Zn by (rewrite <- ZQ_0; apply ZQ_le; exact Hn).
  assert (0 <= ZQ n / ZQ P)%Qc as Qn by (apply qle_div_iff; [exact U|]; rewrite Qcmult_0_l; exact Zn).
  assert (qround (ZQ n / ZQ P * ZQ P) = n) as RN by (replace (ZQ n / ZQ P * ZQ P)%Qc with (ZQ n) by (field; exact NZ); apply qround_ZQ).
  destruct (Rlt_dec x 0) as [L|L].
  - destruct (Z.eq_dec n 0) as [E|E].
    + (* shown as '-0.000' *) exists (- (Q2Qc (1 # 4) / ZQ P))%Qc. unfold fmt_fixed, round_dec. fold P.
      assert (0 < Q2Qc (1 # 4) / ZQ P)%Qc as Q4 by (unfold Qcdiv; apply qmult_pos; [reflexivity|apply qinv_pos; exact U]).
      rewrite AN by qlra'. rewrite Qcopp_involutive. replace (Q2Qc (1 # 4) / ZQ P * ZQ P)%Qc with (Q2Qc (1 # 4)) by (field; exact NZ).
      replace (qround (Q2Qc (1 # 4))) with 0%Z by (vm_compute; reflexivity). rewrite E.
      destruct (qlt_spec (- (Q2Qc (1 # 4) / ZQ P)) 0) as [_|C]; [split; reflexivity|exfalso; apply C; qlra'].
    + exists (- (ZQ n / ZQ P))%Qc. unfold fmt_fixed, round_dec. fold P. rewrite AN by qlra'. rewrite Qcopp_involutive, RN.
      destruct (qlt_spec (- (ZQ n / ZQ P)) 0) as [_|C]; [split; reflexivity|]. exfalso. apply C.
      assert (0 < ZQ n)%Qc as K by (rewrite <- ZQ_0; apply ZQ_lt; lia).
      assert (0 < ZQ n / ZQ P)%Qc as K2 by (unfold Qcdiv; apply qmult_pos; [exact K|apply qinv_pos; exact U]). qlra'.
  - exists (ZQ n / ZQ P)%Qc. unfold fmt_fixed, round_dec. fold P. rewrite AP by exact Qn. rewrite RN.
    destruct (qlt_spec (ZQ n / ZQ P) 0) as [C|_]; [exfalso; qlra'|split; reflexivity].
Qed.
Lemma QR_frac n d : QR (ZQ n / ZQ (10 ^ Z.of_nat d))%Qc = IZR n / IZR (10 ^ Z.of_nat d).
Proof. rewrite QR_div, !QR_ZQ; [reflexivity|]. apply (qpos_nz _ (unit_pos d)). Qed.
Lemma round_decR_nearest d x : nearest_decimalR d x (round_decR d x).
Proof.
  unfold round_decR. set (P := (10 ^ Z.of_nat d)%Z). pose proof (pow10_pos d) as HP. fold P in HP. assert (0 < IZR P) as RP by (apply IZR_lt; exact HP).
  set (n := rround (Rabs x * IZR P)). assert (forall z, QR (ZQ z / ZQ P)%Qc = IZR z / IZR P) as QF by (intros z; apply QR_frac).
  assert (forall z y, Rabs (IZR z / IZR P - y) = Rabs (y * IZR P - IZR z) / IZR P) as SC.
  { intros z y. replace (IZR z / IZR P - y) with (- ((y * IZR P - IZR z) / IZR P)) by (field; lra). rewrite Rabs_Ropp. unfold Rdiv. rewrite Rabs_mult.
    f_equal. apply Rabs_right. apply Rle_ge, Rlt_le, Rinv_0_lt_compat, RP. }
  assert (forall z y w, Rabs (y * IZR P - IZR z) <= Rabs (y * IZR P - IZR w) -> Rabs (IZR z / IZR P - y) <= Rabs (IZR w / IZR P - y)) as K.
  { intros z y w H. rewrite !SC. apply Rmult_le_compat_r; [apply Rlt_le, Rinv_0_lt_compat, RP|exact H]. }
  destruct (Rlt_dec x 0) as [L|L].
  - split; [exists (- n)%Z; fold P; rewrite ZQ_opp; unfold Qcdiv; generalize (/ ZQ P)%Qc; intros u; ring|]. intros z. fold P. rewrite QR_opp, QF.
    replace (- (IZR n / IZR P) - x) with (- (IZR n / IZR P - - x)) by ring. replace (IZR z / IZR P - x) with (- (IZR (- z) / IZR P - - x)) by (rewrite opp_IZR; field; lra).
    rewrite !Rabs_Ropp. apply K. unfold n. rewrite (Rabs_left x) by exact L. apply rround_nearest.
  - split; [exists n; reflexivity|]. intros z. fold P. rewrite QF. apply K. unfold n. rewrite (Rabs_right x) by lra. apply rround_nearest.
Qed.
(** For rational numbers this is the specification of tables. *)
Lemma nearest_decimal_QR d q y : nearest_decimalR d (QR q) y <-> nearest_decimal d q y.
Proof.
  assert (forall a b, Rabs (QR a - QR b) = QR (qabs (a - b)%Qc)) as AB.
  { intros a b. rewrite <- QR_sub. generalize (a - b)%Qc. intros c. unfold qabs. destruct (qle_spec 0 c) as [H|H]; [apply (proj1 (QR_le _ _)) in H; rewrite QR_0 in H; apply Rabs_right; lra|].
    apply Qcnot_le_lt in H. apply (proj1 (QR_lt _ _)) in H. rewrite QR_0 in H. rewrite QR_opp. apply Rabs_left. exact H. }
  unfold nearest_decimalR, nearest_decimal. split; intros [A B]; (split; [exact A|]); intros n; specialize (B n).
  - rewrite <- QR_frac, !AB in B. apply (proj2 (QR_le _ _)), B.
  - rewrite <- QR_frac, !AB. apply (proj1 (QR_le _ _)), B.
Qed.

(** ** Significant digits *)
Lemma ln10_pos : 0 < ln 10. Proof. rewrite <- ln_1. apply ln_increasing; lra. Qed.
Lemma powerRZ_10 e : powerRZ 10 e = exp (IZR e * ln 10).
Proof.
  destruct e as [|p|p]; cbn [powerRZ].
  - rewrite Rmult_0_l, exp_0. reflexivity.
  - rewrite <- Rpower_pow by lra. unfold Rpower. rewrite INR_IPR. reflexivity.
  - rewrite <- Rpower_pow by lra. unfold Rpower. rewrite INR_IPR. change (IZR (Z.neg p)) with (- IPR p). rewrite <- exp_Ropp. f_equal. ring.
Qed.
Lemma exponent_spec x : 0 < x -> powerRZ 10 (exponent x) <= x < powerRZ 10 (exponent x + 1).
Proof.
  intros H. unfold exponent. pose proof (IZR_int_part (ln x / ln 10)) as [A B]. set (e := Int_part _) in *. rewrite !powerRZ_10, plus_IZR.
  pose proof ln10_pos as L. assert (x = exp (ln x / ln 10 * ln 10)) as EX by (replace (ln x / ln 10 * ln 10) with (ln x) by (field; lra); symmetry; apply exp_ln; exact H).
  assert (forall a b, a <= b -> exp a <= exp b) as EM by (intros a b [K| ->]; [left; apply exp_increasing; exact K|right; reflexivity]).
  clearbody e. set (q := ln x / ln 10) in *. clearbody q. rewrite EX.
  split; [apply EM|apply exp_increasing]; [apply Rmult_le_compat_r|apply Rmult_lt_compat_r]; lra.
Qed.
Lemma pow10_R_pos e : 0 < powerRZ 10 e. Proof. apply powerRZ_lt. lra. Qed.
Lemma pow10_add a b : powerRZ 10 (a + b) = powerRZ 10 a * powerRZ 10 b. Proof. apply powerRZ_add. lra. Qed.
Lemma pow10_nat n : (0 <= n)%Z -> powerRZ 10 n = IZR (10 ^ n).
Proof. intros H. rewrite <- (Z2Nat.id n) by exact H. rewrite <- pow_powerRZ. rewrite pow_IZR. reflexivity. Qed.
Lemma exponent_unique x e : 0 < x -> powerRZ 10 e <= x < powerRZ 10 (e + 1) -> exponent x = e.
Proof.
  intros H [A B]. pose proof (exponent_spec x H) as [C D].
  assert (forall a b, powerRZ 10 a < powerRZ 10 b -> (a < b)%Z) as M.
  { intros a b K. destruct (Z_lt_le_dec a b) as [L|L]; [exact L|]. exfalso. replace a with (b + (a - b))%Z in K by ring. rewrite pow10_add, (pow10_nat (a - b)) in K by lia.
    pose proof (pow10_R_pos b). assert (1 <= IZR (10 ^ (a - b))) by (apply IZR_le; pose proof (Z.pow_pos_nonneg 10 (a - b)); lia). nra. }
  pose proof (M _ _ (Rle_lt_trans _ _ _ A D)). pose proof (M _ _ (Rle_lt_trans _ _ _ C B)). lia.
Qed.
Lemma significant_spec x : 0 < x -> let (m, e) := significant x in
  (100000 <= m < 1000000)%Z /\ forall z, has_digits 6 z -> Rabs (IZR m * powerRZ 10 (e - 5) - x) <= Rabs (z - x).
Proof.
  intros H. unfold significant. pose proof (exponent_spec x H) as [A B]. set (e := exponent x) in *. cbv zeta.
  set (u := powerRZ 10 (e - 5)). pose proof (pow10_R_pos (e - 5)) as U. fold u in U. set (y := x / u). set (m := rround y).
  assert (powerRZ 10 e = 100000 * u) as E0 by (unfold u; replace e with (5 + (e - 5))%Z at 1 by ring; rewrite pow10_add; f_equal; rewrite pow10_nat by lia; reflexivity).
  assert (powerRZ 10 (e + 1) = 1000000 * u) as E1 by (unfold u; replace (e + 1)%Z with (6 + (e - 5))%Z at 1 by ring; rewrite pow10_add; f_equal; rewrite pow10_nat by lia; reflexivity).
  assert (x = y * u) as EX by (unfold y; field; lra). rewrite E0 in A. rewrite E1 in B.
  assert (100000 <= y < 1000000) as Y. { split; [apply Rmult_le_reg_r with u; [exact U|rewrite <- EX; exact A]|apply Rmult_lt_reg_r with u; [exact U|rewrite <- EX; exact B]]. }
  assert (100000 <= m <= 1000000)%Z as Hm by (split; [apply rround_mono_Z|apply rround_le_Z]; lra).
  assert (forall k, Rabs (IZR m * u - x) <= Rabs (IZR k * u - x)) as NZ.
  { intros k. rewrite EX. replace (IZR m * u - y * u) with (- ((y - IZR m) * u)) by ring. replace (IZR k * u - y * u) with (- ((y - IZR k) * u)) by ring. rewrite !Rabs_Ropp, !Rabs_mult.
    apply Rmult_le_compat_r; [apply Rabs_pos|apply rround_nearest]. }
  assert (forall z, has_digits 6 z -> Rabs (IZR m * u - x) <= Rabs (z - x)) as N.
  { intros z (n & k & Hn & ->). destruct (Z_lt_le_dec k (e - 5)) as [L|L].
    - (* smaller than 10^e *) eapply Rle_trans; [apply (NZ 100000%Z)|]. assert (IZR n * powerRZ 10 k <= 100000 * u) as K.
      { pose proof (pow10_R_pos k) as PK. apply Rle_trans with (1000000 * powerRZ 10 k); [apply Rmult_le_compat_r; [lra|apply IZR_le; change (10 ^ Z.of_nat 6)%Z with 1000000%Z in Hn; lia]|].
        unfold u. replace (e - 5)%Z with (1 + (e - 6 - k) + k)%Z by ring. rewrite !pow10_add, (pow10_nat 1), (pow10_nat (e - 6 - k)) by lia. change (IZR (10 ^ 1)) with 10.
        assert (1 <= IZR (10 ^ (e - 6 - k))) by (apply IZR_le; pose proof (Z.pow_pos_nonneg 10 (e - 6 - k)); lia). nra. }
      rewrite !Rabs_left1 by lra. lra.
    - replace k with (k - (e - 5) + (e - 5))%Z by ring. rewrite pow10_add, pow10_nat by lia. fold u. rewrite <- Rmult_assoc, <- mult_IZR. apply NZ. }
  destruct (Z.eqb_spec m 1000000) as [E|E].
  - split; [lia|]. intros z Hz. specialize (N z Hz). rewrite E in N. replace (e + 1 - 5)%Z with (1 + (e - 5))%Z by ring. rewrite pow10_add, (pow10_nat 1) by lia. fold u.
    change (IZR (10 ^ 1)) with 10. replace (100000 * (10 * u)) with (1000000 * u) by ring. exact N.
  - split; [lia|exact N].
Qed.
