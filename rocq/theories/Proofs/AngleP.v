(** [atan2] is the angle of a direction. *)
From Coq Require Import Reals Lra.
From Verif.Base Require Import QcR.
From Verif.Model Require Import ContactAngle.
From Verif.Spec Require Import AngleSpec.
Local Open Scope R_scope.

Lemma sqrt_pos1 t : 0 < sqrt (1 + t * t).
Proof. apply sqrt_lt_R0. nra. Qed.
Lemma atan_dir x y : 0 < x -> x = x * sqrt (1 + (y / x) * (y / x)) * cos (atan (y / x)) /\ y = x * sqrt (1 + (y / x) * (y / x)) * sin (atan (y / x)).
Proof.
  intros Hx. pose proof (sqrt_pos1 (y / x)) as HS. rewrite cos_atan, sin_atan. replace (Rsqr (y / x)) with (y / x * (y / x)) by reflexivity. replace ((y / x) ^ 2) with (y / x * (y / x)) by ring. split; field; lra.
Qed.
Lemma atan2_dir y x : (x <> 0 \/ y <> 0) -> - PI < atan2 y x <= PI /\ exists r, 0 < r /\ x = r * cos (atan2 y x) /\ y = r * sin (atan2 y x).
Proof.
  intros H. unfold atan2. pose proof PI_RGT_0 as HP.
  destruct (Rlt_dec 0 x) as [Hx|Hx].
  - pose proof (atan_bound (y / x)) as HB. split; [lra|]. destruct (atan_dir x y Hx) as [E1 E2]. exists (x * sqrt (1 + (y / x) * (y / x))).
    split; [|split; assumption]. apply Rmult_lt_0_compat; [exact Hx|apply sqrt_pos1].
  - destruct (Rlt_dec x 0) as [Hx'|Hx'].
    + pose proof (atan_bound (y / x)) as HB. assert (0 < - x) as Hn by lra. destruct (atan_dir (- x) (- y) Hn) as [E1 E2].
      replace (- y / - x) with (y / x) in E1, E2 by (field; lra).
      assert (0 < - x * sqrt (1 + y / x * (y / x))) as Hr by (apply Rmult_lt_0_compat; [lra|apply sqrt_pos1]).
      assert (atan 0 = 0) as A0 by apply atan_0.
      destruct (Rle_dec 0 y) as [Hy|Hy].
      * split.
        { split; [lra|]. assert (y / x <= 0) as HQ. { unfold Rdiv. assert (/ x < 0) by (apply Rinv_lt_0_compat; exact Hx'). nra. }
          destruct HQ as [HQ|HQ]; [apply atan_increasing in HQ; lra|rewrite HQ; lra]. }
        exists (- x * sqrt (1 + y / x * (y / x))). split; [exact Hr|]. rewrite neg_cos, neg_sin. split; nra.
      * split.
        { assert (0 < y / x) as HQ. { unfold Rdiv. assert (/ x < 0) by (apply Rinv_lt_0_compat; exact Hx'). nra. }
          apply atan_increasing in HQ. lra. }
        exists (- x * sqrt (1 + y / x * (y / x))). split; [exact Hr|].
        replace (atan (y / x) - PI) with (- (PI - atan (y / x))) by ring. rewrite cos_neg, sin_neg.
        replace (PI - atan (y / x)) with (- atan (y / x) + PI) by ring. rewrite neg_cos, neg_sin, cos_neg, sin_neg. split; nra.
    + assert (x = 0) as -> by lra. destruct (Rlt_dec 0 y) as [Hy|Hy].
      * split; [lra|]. exists y. rewrite cos_PI2, sin_PI2. lra.
      * destruct (Rlt_dec y 0) as [Hy'|Hy']; [|exfalso; destruct H; lra]. split; [lra|]. exists (- y). rewrite cos_neg, sin_neg, cos_PI2, sin_PI2. lra.
Qed.
Lemma degrees_rad a : degrees a * PI / 180 = a.
Proof. unfold degrees. pose proof PI_RGT_0. field. lra. Qed.
Lemma atan2_angle x y : 0 < y -> direction_angle x y (degrees (atan2 y x)).
Proof.
  intros Hy. assert (x <> 0 \/ y <> 0) as HN by (right; lra). destruct (atan2_dir y x HN) as ([HB1 HB2] & r & Hr & E1 & E2). pose proof PI_RGT_0 as HP.
  assert (0 <= atan2 y x) as HL.
  { destruct (Rle_dec 0 (atan2 y x)) as [|N]; [assumption|]. exfalso. assert (sin (atan2 y x) < 0) by (apply sin_lt_0_var; lra). nra. }
  split.
  - unfold degrees. assert (0 < / PI) as HI by (apply Rinv_0_lt_compat; exact HP). unfold Rdiv. split; [nra|].
    replace 180 with (PI * 180 * / PI) at 2 by (field; lra). apply Rmult_le_compat_r; [lra|]. nra.
  - exists r. rewrite degrees_rad. auto.
Qed.
(** The angle of a direction is unique. *)
Lemma direction_unique x y a b : direction_angle x y a -> direction_angle x y b -> a = b.
Proof.
  intros ([A1 A2] & r & Hr & X1 & Y1) ([B1 B2] & s & Hs & X2 & Y2). pose proof PI_RGT_0 as HP.
  set (u := a * PI / 180) in *. set (v := b * PI / 180) in *.
  assert (r = s) as <-.
  { assert (r * r = s * s) as E.
    { pose proof (sin2_cos2 u) as P1. pose proof (sin2_cos2 v) as P2. unfold Rsqr in *.
      assert (x * x + y * y = r * r) by (rewrite X1, Y1; transitivity (r * r * (sin u * sin u + cos u * cos u)); [ring|rewrite P1; ring]).
      assert (x * x + y * y = s * s) by (rewrite X2, Y2; transitivity (s * s * (sin v * sin v + cos v * cos v)); [ring|rewrite P2; ring]). lra. }
    nra. }
  assert (cos u = cos v) as EC by (apply (Rmult_eq_reg_l r); [congruence|lra]).
  assert (u = v) as EU.
  { apply cos_inj; [| |exact EC]; unfold u, v; split; unfold Rdiv; try nra. }
  unfold u, v in EU. assert (a * PI = b * PI) by lra. apply (Rmult_eq_reg_r PI); lra.
Qed.
Lemma angle_right_angle x y a : 0 < y -> direction_angle x y a -> (a < 90 <-> 0 < x) /\ (a = 90 <-> x = 0).
Proof.
  intros Hy ([A1 A2] & r & Hr & X & Y). pose proof PI_RGT_0 as HP. set (u := a * PI / 180) in *.
  assert (0 <= u <= PI) as [U1 U2]. { unfold u. split; unfold Rdiv; nra. }
  assert (u = PI / 2 <-> a = 90) as H90. { unfold u. split; [intros E|intros ->; field]. assert (a * PI = 90 * PI) by lra. apply (Rmult_eq_reg_r PI); lra. }
  assert (u < PI / 2 <-> a < 90) as HLT. { unfold u. split; intros E; [apply Rnot_le_lt; intros HN; assert (90 * PI <= a * PI) by nra; lra|]. assert (a * PI < 90 * PI) by nra. lra. }
  rewrite <- H90, <- HLT. destruct (Rtotal_order u (PI / 2)) as [C|[C|C]].
  - assert (0 < cos u) by (apply cos_gt_0; lra). split; split; intros; try lra; nra.
  - rewrite C in *. rewrite cos_PI2 in X. split; split; intros; lra.
  - assert (cos u < 0) by (apply cos_lt_0; lra). split; split; intros; try lra; nra.
Qed.
