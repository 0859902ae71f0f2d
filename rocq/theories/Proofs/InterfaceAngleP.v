(** Angles of interface files. *)
From Coq Require Import String Reals.
From Verif.Base Require Import QcX QcR Res Np Sort Bytes ListX.
From Coq Require Import Lra.
From Verif.Model Require Import ContactAngle InterfaceAngle.
From Verif.Spec Require Import AngleSpec SecantSpec.
From Verif.Proofs Require Import AngleP.
Local Open Scope list_scope.
Local Notation length := List.length.

(** ** Directions *)
Local Open Scope R_scope.
Lemma acos_direction x y : 0 <= y -> (x <> 0 \/ y <> 0) -> direction_angle x y (degrees (acos (x / sqrt (x * x + y * y)))).
Proof.
  intros Hy Hn. assert (0 < x * x + y * y) as HS by (destruct Hn as [H|H]; nra).
  set (r := sqrt (x * x + y * y)). assert (0 < r) as Hr by (apply sqrt_lt_R0; exact HS). assert (r * r = x * x + y * y) as Hrr by (apply sqrt_sqrt; lra).
  assert (-1 <= x / r <= 1) as HB.
  { split; [apply (Rmult_le_reg_r r); [exact Hr|]; unfold Rdiv; rewrite Rmult_assoc, Rinv_l by lra; nra|apply (Rmult_le_reg_r r); [exact Hr|]; unfold Rdiv; rewrite Rmult_assoc, Rinv_l by lra; nra]. }
  pose proof (acos_bound (x / r)) as [A1 A2]. pose proof PI_RGT_0 as HP. split.
  - unfold degrees. assert (0 < / PI) as HI by (apply Rinv_0_lt_compat; exact HP). unfold Rdiv in *. split; [nra|].
    replace 180 with (PI * 180 * / PI) at 2 by (field; lra). apply Rmult_le_compat_r; [lra|]. nra.
  - exists r. rewrite degrees_rad. split; [exact Hr|]. rewrite cos_acos by exact HB. split; [field; lra|].
    rewrite sin_acos by exact HB. assert (1 - Rsqr (x / r) = (y / r) * (y / r)) as ->.
    { unfold Rsqr. replace ((y / r) * (y / r)) with ((y * y) / (r * r)) by (field; lra). replace (x / r * (x / r)) with (x * x / (r * r)) by (field; lra). rewrite Hrr. field. lra. }
    rewrite sqrt_square; [field; lra|]. unfold Rdiv. apply Rmult_le_pos; [exact Hy|left; apply Rinv_0_lt_compat; exact Hr].
Qed.
Lemma direction_scale k x y a : 0 < k -> direction_angle x y a -> direction_angle (k * x) (k * y) a.
Proof. intros Hk (HA & r & Hr & -> & ->). split; [exact HA|]. exists (k * r). split; [nra|]. split; ring. Qed.
Local Open Scope Qc_scope.
Lemma vector_direction dx dy a : 0 <= dy -> vector_angle (dx, dy) = Some a -> direction_angle (QR dx) (QR dy) a.
Proof.
  intros Hy H. unfold vector_angle in H. destruct (qeq_spec dx 0) as [Ex|Ex]; destruct (qeq_spec dy 0) as [Ey|Ey]; cbn [andb] in H; try discriminate; injection H as <-;
    (apply acos_direction; [apply QR_le in Hy; rewrite QR_0 in Hy; exact Hy|]); first [left; apply QR_nz; assumption|right; apply QR_nz; assumption].
Qed.
Lemma vector_none dx dy : vector_angle (dx, dy) = None <-> dx = 0 /\ dy = 0.
Proof.
  unfold vector_angle. destruct (qeq_spec dx 0) as [Ex|Ex]; destruct (qeq_spec dy 0) as [Ey|Ey]; cbn [andb]; split; intros H; try discriminate; try (destruct H; contradiction); auto.
Qed.
(** The same direction, the same angle. *)
Lemma vector_same x y x' y' k : 0 < k -> 0 <= y -> x' = k * x -> y' = k * y -> vector_angle (x', y') = vector_angle (x, y).
Proof.
  intros Hk Hy -> ->. destruct (vector_angle (x, y)) as [a|] eqn:E.
  - destruct (vector_angle (k * x, k * y)) as [b|] eqn:E'.
    + apply vector_direction in E; [|exact Hy]. apply vector_direction in E'; [|apply qmult_nonneg; [apply qc_lt_le; exact Hk|exact Hy]].
      f_equal. rewrite !QR_mul in E'. apply (direction_scale (QR k)) in E; [|apply QR_pos; exact Hk]. exact (direction_unique _ _ _ _ E' E).
    + apply vector_none in E'. destruct E' as [E1 E2]. assert (vector_angle (x, y) = None) as C; [|congruence]. apply vector_none.
      assert (k <> 0) as Nk by (apply qpos_nz; exact Hk). split; [destruct (Qcmult_integral _ _ E1)|destruct (Qcmult_integral _ _ E2)]; tauto.
  - apply vector_none in E. destruct E as [-> ->]. apply vector_none. split; ring.
Qed.

(** ** The point chosen by the height *)
Lemma secant_chosen edge right height : edge <> [] -> exists k p0 p, chosen edge height k p0 p /\
  secant edge right height = Ok (if right then - (fst p - fst p0) else fst p - fst p0, snd p - snd p0).
Proof.
  intros Hne. destruct edge as [|[x0 y0] edge]; [contradiction|]. unfold secant. set (e := (x0, y0) :: edge) in *.
  destruct (argmin_some (map (fun p => qabs (snd p - y0 - height)) e)) as (k & Hk). { subst e. cbn [map]. discriminate. }
  rewrite Hk. cbn [of_option rbind]. destruct (argmin_spec _ _ Hk) as (v & Hv & Hmin & Hfirst). rewrite nth_error_map in Hv.
  destruct (nth_error e k) as [[x1 y1]|] eqn:Ek; [|discriminate]. cbn [option_map snd] in Hv. injection Hv as <-.
  rewrite (nth_error_nth e k (0, 0) Ek). exists k, (x0, y0), (x1, y1). split; [|destruct right; reflexivity].
  split; [reflexivity|]. split; [exact Ek|]. cbn [snd]. split.
  - intros q Hq. apply Hmin. apply in_map_iff. exists q. split; [reflexivity|exact Hq].
  - intros j q Hj Hq. apply (Hfirst j); [exact Hj|]. rewrite nth_error_map, Hq. reflexivity.
Qed.
Lemma chosen_unique edge height k p0 p k' p0' p' : chosen edge height k p0 p -> chosen edge height k' p0' p' -> k = k' /\ p0 = p0' /\ p = p'.
Proof.
  intros (A1 & A2 & A3 & A4) (B1 & B2 & B3 & B4). rewrite A1 in B1. injection B1 as <-.
  assert (k = k') as <-.
  { destruct (Nat.lt_trichotomy k k') as [H|[H|H]]; [|exact H|]; exfalso.
    - specialize (B4 _ _ H A2). specialize (A3 p' (nth_error_In _ _ B2)). apply (Qclt_not_le _ _ B4). exact A3.
    - specialize (A4 _ _ H B2). specialize (B3 p (nth_error_In _ _ A2)). apply (Qclt_not_le _ _ A4). exact B3. }
  rewrite A2 in B2. injection B2 as <-. auto.
Qed.
Lemma secant_of edge right height k p0 p : chosen edge height k p0 p ->
  secant edge right height = Ok (if right then - (fst p - fst p0) else fst p - fst p0, snd p - snd p0).
Proof.
  intros H. assert (edge <> []) as Hne by (destruct H as (H & _); intros ->; discriminate).
  destruct (secant_chosen edge right height Hne) as (k' & p0' & p' & H' & E). destruct (chosen_unique _ _ _ _ _ _ _ _ H H') as (_ & -> & ->). exact E.
Qed.
