(** Angles on the circle and the intervals of angles. *)
From Coq Require Import Reals.
From Verif.Base Require Import QcX QcR Res Np ListX.
From Verif.Model Require Import Bins Flow Sample ContactAngle SampleAngle.
From Verif.Spec Require Import AngleSpec CircleSpec.
From Verif.Proofs Require Import AngleP.
From Coq Require Import Lra.
Local Open Scope R_scope.
Local Open Scope list_scope.

(** ** Directions *)
Lemma cos_1 x : cos x = 1 -> - (2 * PI) < x < 2 * PI -> x = 0.
Proof.
  intros H [H1 H2]. pose proof PI_RGT_0 as HP. replace x with (2 * (x / 2)) in H by field. rewrite cos_2a_sin in H.
  assert (sin (x / 2) = 0) as HS by nra.
  destruct (Rtotal_order (x / 2) 0) as [L|[E|G]]; [|lra|].
  - exfalso. assert (sin (x / 2) < 0) by (apply sin_lt_0_var; lra). lra.
  - exfalso. assert (0 < sin (x / 2)) by (apply sin_gt_0; lra). lra.
Qed.
Lemma direction_same x y a b : direction x y a -> direction x y b -> -360 < a - b < 360 -> a = b.
Proof.
  intros (r & Hr & X1 & Y1) (s & Hs & X2 & Y2) [H1 H2]. pose proof PI_RGT_0 as HP.
  set (u := a * PI / 180) in *. set (v := b * PI / 180) in *.
  pose proof (sin2_cos2 u) as P1. pose proof (sin2_cos2 v) as P2. unfold Rsqr in *.
  assert (r = s) as <-.
  { assert (r * r = s * s) as E.
    { assert (x * x + y * y = r * r) by (rewrite X1, Y1; transitivity (r * r * (sin u * sin u + cos u * cos u)); [ring|rewrite P1; ring]).
      assert (x * x + y * y = s * s) by (rewrite X2, Y2; transitivity (s * s * (sin v * sin v + cos v * cos v)); [ring|rewrite P2; ring]). lra. }
    nra. }
  assert (cos u = cos v) as EC by (apply (Rmult_eq_reg_l r); [congruence|lra]). assert (sin u = sin v) as ES by (apply (Rmult_eq_reg_l r); [congruence|lra]).
  assert (u - v = 0) as E.
  { apply cos_1.
    - rewrite cos_minus, EC, ES. lra.
    - unfold u, v. replace (a * PI / 180 - b * PI / 180) with ((a - b) / 180 * PI) by field. split; nra. }
  unfold u, v in E. assert ((a - b) * PI = 0) as E' by lra. apply Rmult_integral in E' as [E'|E']; lra.
Qed.
Lemma degrees_range x lo hi : lo * PI / 180 <= x -> x <= hi * PI / 180 -> lo <= degrees x <= hi.
Proof.
  intros H1 H2. pose proof PI_RGT_0 as HP. unfold degrees. assert (0 < / PI) as HI by (apply Rinv_0_lt_compat; exact HP). split.
  - replace lo with (lo * PI / 180 * 180 / PI) by (field; lra). unfold Rdiv. apply Rmult_le_compat_r; [lra|]. apply Rmult_le_compat_r; [lra|]. exact H1.
  - replace hi with (hi * PI / 180 * 180 / PI) by (field; lra). unfold Rdiv. apply Rmult_le_compat_r; [lra|]. apply Rmult_le_compat_r; [lra|]. exact H2.
Qed.
Lemma degrees_lt x lo : lo * PI / 180 < x -> lo < degrees x.
Proof.
  intros H. pose proof PI_RGT_0 as HP. unfold degrees. assert (0 < / PI) as HI by (apply Rinv_0_lt_compat; exact HP).
  replace lo with (lo * PI / 180 * 180 / PI) by (field; lra). unfold Rdiv. apply Rmult_lt_compat_r; [lra|]. apply Rmult_lt_compat_r; [lra|]. exact H.
Qed.
Lemma atan2_direction x y : x <> 0 \/ y <> 0 -> -180 < degrees (atan2 y x) <= 180 /\ direction x y (degrees (atan2 y x)).
Proof.
  intros H. destruct (atan2_dir y x H) as ([H1 H2] & r & Hr & X & Y). split.
  - split; [apply degrees_lt; lra|]. apply (degrees_range _ (-360)); [pose proof PI_RGT_0; lra|lra].
  - exists r. rewrite degrees_rad. auto.
Qed.
Lemma direction_scale c x y a : 0 < c -> direction x y a -> direction (c * x) (c * y) a.
Proof. intros Hc (r & Hr & -> & ->). exists (c * r). split; [nra|]. split; ring. Qed.
Lemma direction_half_turn x y a : direction x y a -> direction (- x) (- y) (a + 180).
Proof.
  intros (r & Hr & -> & ->). exists r. split; [exact Hr|]. replace ((a + 180) * PI / 180) with (a * PI / 180 + PI) by field. rewrite neg_cos, neg_sin. split; ring.
Qed.
Lemma direction_full_turn x y a : direction x y a -> direction x y (a + 360).
Proof. intros H. replace x with (- - x) by ring. replace y with (- - y) by ring. replace (a + 360) with (a + 180 + 180) by ring. apply direction_half_turn, direction_half_turn, H. Qed.
Lemma direction_nz x y a : direction x y a -> x <> 0 \/ y <> 0.
Proof.
  intros (r & Hr & X & Y). destruct (Req_dec x 0) as [E|E]; [|left; exact E]. right. intros E'. pose proof (sin2_cos2 (a * PI / 180)) as P. unfold Rsqr in P. rewrite E in X. rewrite E' in Y.
  assert (cos (a * PI / 180) = 0) by nra. assert (sin (a * PI / 180) = 0) by nra. nra.
Qed.

(** ** The angle of a bin *)
Lemma radius_pos dx dy : (dx <> 0 \/ dy <> 0)%Qc -> 0 < radius dx dy /\ radius dx dy * radius dx dy = QR dx * QR dx + QR dy * QR dy.
Proof.
  intros H. assert (0 < QR dx * QR dx + QR dy * QR dy) as HP.
  { destruct H as [H|H]; apply QR_nz in H; [assert (0 < QR dx * QR dx) by (apply Rsqr_pos_lt; exact H); assert (0 <= QR dy * QR dy) by apply Rle_0_sqr|assert (0 < QR dy * QR dy) by (apply Rsqr_pos_lt; exact H); assert (0 <= QR dx * QR dx) by apply Rle_0_sqr]; lra. }
  split; [apply sqrt_lt_R0, HP|]. apply sqrt_sqrt. lra.
Qed.
Lemma bin_degrees_spec dx dy : (dx <> 0 \/ dy <> 0)%Qc -> ~ (dy = 0 /\ dx < 0)%Qc ->
  exists a, bin_degrees dx dy = Some a /\ 0 <= a < 360 /\ direction (QR dx) (QR dy) a.
Proof.
  intros H HN. destruct (radius_pos dx dy H) as [HR ER]. set (r := radius dx dy) in *. pose proof PI_RGT_0 as HP. unfold bin_degrees. fold r.
  assert ((qeq dx 0 && qeq dy 0)%bool = false) as ->. { destruct (qeq_spec dx 0), (qeq_spec dy 0); try reflexivity. subst. exfalso. destruct H as [H|H]; apply H; reflexivity. }
  eexists. split; [reflexivity|].
  set (t := QR dx / r). assert (QR dx = r * t) as Et by (unfold t; field; lra).
  assert (-1 <= t <= 1) as Ht. { assert (0 <= QR dy * QR dy) by apply Rle_0_sqr. assert (t * t <= 1) by (apply (Rmult_le_reg_l (r * r)); [nra|]; rewrite Et in ER; nra). split; nra. }
  assert (r * r * (1 - t * t) = QR dy * QR dy) as ED by (rewrite Et in ER; nra).
  pose proof (acos_bound t) as HA.
  assert (forall s, 0 <= s -> QR dy = s \/ QR dy = - s -> r * sin (acos t) = s) as SN.
  { intros s Hs Hd. rewrite sin_acos by exact Ht.
    assert (sqrt (1 - Rsqr t) * sqrt (1 - Rsqr t) = 1 - t * t) as SS by (apply sqrt_sqrt; unfold Rsqr; nra). pose proof (sqrt_pos (1 - Rsqr t)) as SP.
    set (q := sqrt (1 - Rsqr t)) in *. clearbody q.
    apply (Rsqr_inj (r * q) s); [apply Rmult_le_pos; lra|exact Hs|]. unfold Rsqr. replace (r * q * (r * q)) with (r * r * (q * q)) by ring.
    rewrite SS, ED. destruct Hd as [-> | ->]; ring. }
  unfold sign. destruct (qlt 0 dy) eqn:E1.
  - apply qlt_true in E1. apply QR_pos in E1. rewrite Rmult_1_l.
    assert (direction (QR dx) (QR dy) (degrees (acos t))) as HD. { exists r. split; [exact HR|]. rewrite degrees_rad, cos_acos by exact Ht. split; [exact Et|]. symmetry. apply SN; [lra|left; reflexivity]. }
    assert (0 <= degrees (acos t) <= 180) as HB by (apply degrees_range; lra).
    unfold mod360. destruct (Rlt_dec (degrees (acos t)) 0); [lra|]. split; [lra|exact HD].
  - destruct (qlt dy 0) eqn:E2.
    + apply qlt_true in E2. assert (QR dy < 0) as E2' by (rewrite <- QR_0; apply QR_lt; exact E2). replace (-1 * acos t) with (- acos t) by ring.
      assert (r * sin (acos t) = - QR dy) as SD by (apply SN; [lra|right; ring]).
      assert (direction (QR dx) (QR dy) (degrees (- acos t))) as HD. { exists r. split; [exact HR|]. rewrite degrees_rad, cos_neg, sin_neg, cos_acos by exact Ht. split; [exact Et|lra]. }
      assert (-180 <= degrees (- acos t) <= 0) as HB by (apply degrees_range; lra).
      unfold mod360. destruct (Rlt_dec (degrees (- acos t)) 0) as [L|L]; [split; [lra|apply direction_full_turn; exact HD]|].
      exfalso. assert (degrees (- acos t) = 0) as Z by lra. rewrite Z in HD. destruct HD as (q & Hq & _ & Y). replace (0 * PI / 180) with 0 in Y by field. rewrite sin_0 in Y. lra.
    + assert (dy = 0)%Qc as E0. { apply qlt_false in E1, E2. apply Qcle_antisym; assumption. }
      rewrite Rmult_0_l. assert (degrees 0 = 0) as -> by (unfold degrees; field; lra). unfold mod360. destruct (Rlt_dec 0 0); [lra|]. split; [lra|].
      assert (0 < QR dx) as HX. { apply QR_pos. destruct (Qclt_le_dec 0 dx) as [L|L]; [exact L|]. exfalso. destruct (Qcle_lt_or_eq _ _ L) as [L'|L']; [apply HN; auto|]. destruct H as [H|H]; apply H; assumption. }
      exists (QR dx). split; [exact HX|]. replace (0 * PI / 180) with 0 by field. rewrite cos_0, sin_0, E0, QR_0. lra.
Qed.
Lemma bin_degrees_negative_axis dx : (dx < 0)%Qc -> bin_degrees dx 0 = Some 0.
Proof.
  intros H. unfold bin_degrees. destruct (qeq_spec dx 0) as [E|E]; [subst; exfalso; apply (Qclt_not_le _ _ H); apply Qcle_refl|]. cbn [andb]. f_equal. unfold sign.
  assert (qlt 0 0 = false) as -> by reflexivity. rewrite Rmult_0_l. assert (degrees 0 = 0) as -> by (unfold degrees; pose proof PI_RGT_0; field; lra). unfold mod360. destruct (Rlt_dec 0 0); [lra|reflexivity].
Qed.

(** ** Nearest angle *)
Lemma nearest_spec out x k : nth_error out k <> None ->
  (forall j b a, nth_error out k = Some a -> nth_error out j = Some b -> (j < k)%nat -> Rabs (a - x) < Rabs (b - x)) ->
  (forall j b a, nth_error out k = Some a -> nth_error out j = Some b -> (k < j)%nat -> Rabs (a - x) <= Rabs (b - x)) ->
  fst (nearest out x) = k /\ exists a, nth_error out k = Some a /\ snd (nearest out x) = Rabs (a - x).
Proof.
  revert k. induction out as [|a out IH]; intros k HK H1 H2; [destruct k; simpl in HK; congruence|].
  destruct out as [|a' out'].
  - destruct k as [|[|k]]; simpl in HK; try congruence. split; [reflexivity|]. exists a. split; reflexivity.
  - change (nearest (a :: a' :: out') x) with (let (k, d) := nearest (a' :: out') x in if Rle_dec (Rabs (a - x)) d then (0%nat, Rabs (a - x)) else (S k, d)).
    destruct k as [|k].
    + assert (forall l, l <> [] -> exists b, In b l /\ snd (nearest l x) = Rabs (b - x)) as EX.
      { clear. induction l as [|b l IH]; [congruence|]. intros _. destruct l as [|b' l]; [exists b; split; [left|]; reflexivity|].
        change (nearest (b :: b' :: l) x) with (let (k, d) := nearest (b' :: l) x in if Rle_dec (Rabs (b - x)) d then (0%nat, Rabs (b - x)) else (S k, d)).
        destruct IH as (c & Hc & E); [discriminate|]. destruct (nearest (b' :: l) x) as [k d]. destruct (Rle_dec _ d); cbn [snd] in *; [exists b; split; [left|]; reflexivity|exists c; split; [right; exact Hc|exact E]]. }
      destruct (EX (a' :: out')) as (b & Hb & E); [discriminate|]. destruct (nearest (a' :: out') x) as [k d]. cbn [snd] in E. subst d.
      apply In_nth_error in Hb as (j & Hj). destruct (Rle_dec (Rabs (a - x)) (Rabs (b - x))) as [L|L]; cbn [fst snd]; [split; [reflexivity|exists a; split; reflexivity]|].
      exfalso. apply L. apply (H2 (S j) b a); [reflexivity|exact Hj|lia].
    + destruct (IH k) as (E & b & Hb & E'); [exact HK| | |].
      * intros j b c Hc Hb Hjk. apply (H1 (S j) b c Hc Hb). lia.
      * intros j b c Hc Hb Hjk. apply (H2 (S j) b c Hc Hb). lia.
      * destruct (nearest (a' :: out') x) as [k' d]. cbn [fst snd] in *. subst. destruct (Rle_dec (Rabs (a - x)) (Rabs (b - x))) as [L|L].
        -- exfalso. pose proof (H1 0%nat a b Hb eq_refl ltac:(lia)). lra.
        -- cbn [fst snd]. split; [reflexivity|]. exists b. split; [exact Hb|reflexivity].
Qed.

(** ** Intervals *)
Definition eps : R := QR (Q2Qc (1 # 1000000)).
Section Intervals.
Context (o : aopts).
Hypothesis Hsize : (Q2Qc (1 # 1000000) <= size o)%Qc.
Lemma eps_pos : 0 < eps. Proof. unfold eps. apply QR_pos. reflexivity. Qed.
Lemma size_eps : eps <= QR (size o). Proof. apply QR_le. exact Hsize. Qed.
Lemma out_angles_length : length (out_angles o) = Z.to_nat (qceil ((hi_angle o + size o - lo_angle o) / size o)%Qc).
Proof. unfold out_angles. rewrite map_length, seq_length. reflexivity. Qed.
Lemma out_angles_nth k : (k < length (out_angles o))%nat -> nth_error (out_angles o) k = Some (lo_angle o + NQ k * size o)%Qc.
Proof. intros H. rewrite out_angles_length in H. unfold out_angles. apply (nth_error_map_seq (fun k => (lo_angle o + NQ k * size o)%Qc)). exact H. Qed.
Lemma out_angles_cover : (lo_angle o <= hi_angle o)%Qc -> exists n, length (out_angles o) = S n /\ (hi_angle o <= lo_angle o + NQ n * size o)%Qc.
Proof.
  intros H. rewrite out_angles_length. set (q := ((hi_angle o + size o - lo_angle o) / size o)%Qc). destruct (qceil_spec q) as [C1 C2].
  assert (0 < size o)%Qc as HP by (eapply Qclt_le_trans; [|exact Hsize]; reflexivity).
  assert (q * size o = hi_angle o + size o - lo_angle o)%Qc as EQ by (unfold q; field; apply qpos_nz, HP).
  assert (1 <= q)%Qc as H1 by (unfold q; apply qle_div_iff; [exact HP|]; qlra').
  assert (0 < qceil q)%Z as HZ. { apply ZQ_lt. change (ZQ 0) with 0%Qc. apply Qclt_le_trans with (1)%Qc; [reflexivity|]. eapply Qcle_trans; eassumption. }
  exists (Z.to_nat (qceil q) - 1)%nat. split; [lia|].
  assert (NQ (Z.to_nat (qceil q) - 1) + 1 = ZQ (qceil q))%Qc as EN. { rewrite <- NQ_S. unfold NQ. f_equal. lia. }
  assert (q * size o <= (NQ (Z.to_nat (qceil q) - 1) + 1) * size o)%Qc as HM by (rewrite EN; apply Qcmult_le_compat_r; [exact C1|apply Qclt_le_weak; exact HP]).
  rewrite EQ in HM. revert HM. replace ((NQ (Z.to_nat (qceil q) - 1) + 1) * size o)%Qc with (NQ (Z.to_nat (qceil q) - 1) * size o + size o)%Qc by ring. generalize (NQ (Z.to_nat (qceil q) - 1) * size o)%Qc. intros w HM. qlra'.
Qed.
(** Interval number [k] of an angle. *)
Definition in_interval (k : nat) (a : R) : Prop :=
  (k < length (out_angles o))%nat /\ QR (lo_angle o + NQ k * size o)%Qc - eps < a <= QR (lo_angle o + NQ k * size o)%Qc + QR (size o) - eps.
Lemma start_S k : QR (lo_angle o + NQ (S k) * size o)%Qc = QR (lo_angle o + NQ k * size o)%Qc + QR (size o).
Proof. rewrite NQ_S, <- QR_add. f_equal. ring. Qed.
Lemma start_mono j k : (j <= k)%nat -> QR (lo_angle o + NQ j * size o)%Qc <= QR (lo_angle o + NQ k * size o)%Qc.
Proof. pose proof size_eps. pose proof eps_pos. induction 1; [lra|]. rewrite start_S. lra. Qed.
Lemma in_interval_exists a : QR (lo_angle o) <= a <= QR (hi_angle o) -> exists k, in_interval k a.
Proof.
  intros [H1 H2]. pose proof size_eps. pose proof eps_pos. destruct out_angles_cover as (n & Hn & HC); [apply QR_le; lra|]. apply QR_le in HC.
  assert (forall m, (m <= n)%nat -> a <= QR (lo_angle o + NQ m * size o)%Qc + QR (size o) - eps -> exists k, in_interval k a) as G.
  { induction m as [|m IH]; intros Hm Ha.
    - exists 0%nat. split; [lia|]. rewrite NQ_0 in Ha |- *. replace (lo_angle o + 0 * size o)%Qc with (lo_angle o) in Ha |- * by ring. lra.
    - destruct (Rle_dec a (QR (lo_angle o + NQ m * size o)%Qc + QR (size o) - eps)) as [L|L]; [apply IH; [lia|exact L]|].
      exists (S m). split; [lia|]. rewrite start_S in Ha |- *. lra. }
  apply (G n); [lia|]. lra.
Qed.
Lemma in_interval_unique a j k : in_interval j a -> in_interval k a -> j = k.
Proof.
  intros [_ [A1 A2]] [_ [B1 B2]]. destruct (Nat.lt_trichotomy j k) as [L|[E|L]]; [exfalso|exact E|exfalso].
  - apply start_mono in L. rewrite start_S in L. lra.
  - apply start_mono in L. rewrite start_S in L. lra.
Qed.
Lemma nearest_interval k a : in_interval k a -> fst (nearest (map QR (out_angles o)) (a - QR (size o) / 2 + eps)) = k.
Proof.
  intros (Hk & A1 & A2). set (x := a - QR (size o) / 2 + eps). pose proof size_eps. pose proof eps_pos.
  assert (forall j, (j < length (out_angles o))%nat -> nth_error (map QR (out_angles o)) j = Some (QR (lo_angle o + NQ j * size o)%Qc)) as NE.
  { intros j Hj. apply map_nth_error. apply out_angles_nth. exact Hj. }
  assert (forall j b, nth_error (map QR (out_angles o)) j = Some b -> b = QR (lo_angle o + NQ j * size o)%Qc) as NE'.
  { intros j b Hj. assert (j < length (out_angles o))%nat by (rewrite <- (map_length QR); apply nth_error_Some; congruence). rewrite NE in Hj by assumption. congruence. }
  assert (Rabs (QR (lo_angle o + NQ k * size o)%Qc - x) <= QR (size o) / 2) as HK by (unfold x; apply Rabs_le; lra).
  assert (- (QR (size o) / 2) < x - QR (lo_angle o + NQ k * size o)%Qc) as HK' by (unfold x; lra).
  assert (x - QR (lo_angle o + NQ k * size o)%Qc <= QR (size o) / 2) as HK2 by (unfold x; lra).
  destruct (nearest_spec (map QR (out_angles o)) x k) as [E _]; [rewrite NE by exact Hk; congruence| | |exact E].
  - intros j b c Hc Hb Hjk. apply NE' in Hc, Hb. subst b c. apply start_mono in Hjk. rewrite start_S in Hjk.
    assert (QR (size o) / 2 < Rabs (QR (lo_angle o + NQ j * size o)%Qc - x)); [|lra]. rewrite Rabs_minus_sym. rewrite Rabs_right; lra.
  - intros j b c Hc Hb Hjk. apply NE' in Hc, Hb. subst b c. apply start_mono in Hjk. rewrite start_S in Hjk.
    assert (QR (size o) / 2 <= Rabs (QR (lo_angle o + NQ j * size o)%Qc - x)); [|lra]. rewrite Rabs_right; lra.
Qed.
End Intervals.
