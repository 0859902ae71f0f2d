(** Properties C45 and C61: samples by angle and the angle of the flow. *)
From Coq Require Import Reals.
From Verif.Base Require Import QcX QcR Res Np ListX Sums.
From Verif.Model Require Import Bins Flow Sample ContactAngle SampleAngle.
From Verif.Spec Require Import FlowSpec CircleSpec.
From Verif.Proofs Require Import FlowP SampleP AngleP SampleAngleP.
From Coq Require Import Lra.
Local Open Scope R_scope.
Local Open Scope list_scope.

(** ** C45 *)
Definition micro : R := QR (Q2Qc (1 # 1000000)).
(** Seen from [origin], bin [b] is in the direction of [a] degrees, 0 <= a < 360, and within the limits of
    angles and distances.  The last angle is 360 - size, see below. *)
Definition seen_at (o : aopts) (origin : Qc * Qc) (b : bin) (a : R) : Prop :=
  0 <= a < 360 /\ direction (QR (bX b - fst origin)) (QR (bY b - snd origin)) a /\
  QR (amin o) <= a /\ a <= QR (amax o) /\ a <= 360 - QR (size o) /\
  exists r, 0 <= r /\ r * r = QR (bX b - fst origin) * QR (bX b - fst origin) + QR (bY b - snd origin) * QR (bY b - snd origin) /\
    QR (rmin o) <= r /\ match rmax o with Some m => r <= QR m | None => True end.
(** Bin [b] is left of the origin at the same height. *)
Definition straight_left (origin : Qc * Qc) (b : bin) : Prop := (bY b - snd origin = 0 /\ bX b - fst origin < 0)%Qc.

Lemma dec_true {A B} (d : {A} + {B}) : dec d = true -> A. Proof. destruct d; [auto|discriminate]. Qed.
Lemma dec_intro {A} (d : {A} + {~ A}) : A -> dec d = true. Proof. destruct d; [reflexivity|contradiction]. Qed.
Lemma QR_360 : QR (ZQ 360) = 360. Proof. unfold QR. replace (this (ZQ 360)) with (360 # 1)%Q by reflexivity. unfold Q2R. cbn. lra. Qed.
Lemma lo_angle_le o a : QR (lo_angle o) <= a <-> 0 <= a /\ QR (amin o) <= a.
Proof.
  unfold lo_angle, qmax. destruct (qle 0%Qc (amin o)) eqn:E.
  - apply qle_true, QR_le in E. rewrite QR_0 in E. split; [intros; split; lra|intros [_ H]; exact H].
  - apply qle_false, QR_lt in E. rewrite QR_0 in *. split; [intros; split; lra|intros [H _]; exact H].
Qed.
Lemma hi_angle_le o a : a <= QR (hi_angle o) <-> a <= 360 - QR (size o) /\ a <= QR (amax o).
Proof.
  assert (QR (ZQ 360 - size o) = 360 - QR (size o)) as ES by (rewrite QR_sub, QR_360; reflexivity).
  unfold hi_angle, qmin. destruct (qle (ZQ 360 - size o)%Qc (amax o)) eqn:E.
  - apply qle_true, QR_le in E. rewrite ES in *. split; [intros; split; lra|intros [H _]; exact H].
  - apply qle_false, QR_lt in E. rewrite ES in *. split; [intros; split; lra|intros [_ H]; exact H].
Qed.
Lemma radius_unique dx dy r : 0 <= r -> r * r = QR dx * QR dx + QR dy * QR dy -> radius dx dy = r.
Proof. intros H E. unfold radius. rewrite <- E. apply sqrt_square. exact H. Qed.
Lemma limited_angle_seen o origin b a : ~ straight_left origin b -> (limited_angle o origin b = Some a <-> seen_at o origin b a).
Proof.
  intros HN. unfold limited_angle. set (dx := (bX b - fst origin)%Qc). set (dy := (bY b - snd origin)%Qc).
  destruct (Qc_eq_dec dx 0) as [EX|EX]; [destruct (Qc_eq_dec dy 0) as [EY|EY]|].
  - split.
    + intros H. destruct (_ && _)%bool in H; [|discriminate]. unfold bin_degrees in H. rewrite EX, EY in H. discriminate.
    + intros (_ & HD & _). exfalso. fold dx dy in HD. rewrite EX, EY, QR_0 in HD. apply direction_nz in HD. lra.
  - assert (dx <> 0 \/ dy <> 0)%Qc as HNZ by (right; exact EY).
    destruct (bin_degrees_spec dx dy HNZ HN) as (a' & EA & HB & HD). rewrite EA. destruct (radius_pos dx dy HNZ) as [HR ER].
    split.
    + intros H. destruct (_ && _)%bool eqn:EL in H; [|discriminate]. apply Bool.andb_true_iff in EL as [L1 L2]. apply dec_true in L1.
      destruct (_ && _)%bool eqn:EM in H; [|discriminate]. apply Bool.andb_true_iff in EM as [M1 M2]. apply dec_true in M1, M2. injection H as <-. apply lo_angle_le in M1. apply hi_angle_le in M2.
      repeat (split; try tauto; try lra). exists (radius dx dy). split; [lra|]. split; [exact ER|]. split; [exact L1|]. destruct (rmax o); [apply dec_true in L2; exact L2|exact I].
    + intros ([B1 B2] & HD' & M1 & M2 & M3 & r & R0 & RE & R1 & R2). fold dx dy in HD', RE. rewrite (radius_unique dx dy r R0 RE).
      assert (a' = a) as -> by (eapply direction_same; [exact HD|exact HD'|lra]).
      assert (dec (Rle_dec (QR (rmin o)) r) = true) as -> by (apply dec_intro; exact R1).
      assert (match rmax o with Some m => dec (Rle_dec r (QR m)) | None => true end = true) as -> by (destruct (rmax o); [apply dec_intro; exact R2|reflexivity]). cbn [andb].
      assert (dec (Rle_dec (QR (lo_angle o)) a) = true) as -> by (apply dec_intro, lo_angle_le; split; lra).
      assert (dec (Rle_dec a (QR (hi_angle o))) = true) as -> by (apply dec_intro, hi_angle_le; split; lra). reflexivity.
  - assert (dx <> 0 \/ dy <> 0)%Qc as HNZ by (left; exact EX).
    destruct (bin_degrees_spec dx dy HNZ HN) as (a' & EA & HB & HD). rewrite EA. destruct (radius_pos dx dy HNZ) as [HR ER].
    split.
    + intros H. destruct (_ && _)%bool eqn:EL in H; [|discriminate]. apply Bool.andb_true_iff in EL as [L1 L2]. apply dec_true in L1.
      destruct (_ && _)%bool eqn:EM in H; [|discriminate]. apply Bool.andb_true_iff in EM as [M1 M2]. apply dec_true in M1, M2. injection H as <-. apply lo_angle_le in M1. apply hi_angle_le in M2.
      repeat (split; try tauto; try lra). exists (radius dx dy). split; [lra|]. split; [exact ER|]. split; [exact L1|]. destruct (rmax o); [apply dec_true in L2; exact L2|exact I].
    + intros ([B1 B2] & HD' & M1 & M2 & M3 & r & R0 & RE & R1 & R2). fold dx dy in HD', RE. rewrite (radius_unique dx dy r R0 RE).
      assert (a' = a) as -> by (eapply direction_same; [exact HD|exact HD'|lra]).
      assert (dec (Rle_dec (QR (rmin o)) r) = true) as -> by (apply dec_intro; exact R1).
      assert (match rmax o with Some m => dec (Rle_dec r (QR m)) | None => true end = true) as -> by (destruct (rmax o); [apply dec_intro; exact R2|reflexivity]). cbn [andb].
      assert (dec (Rle_dec (QR (lo_angle o)) a) = true) as -> by (apply dec_intro, lo_angle_le; split; lra).
      assert (dec (Rle_dec a (QR (hi_angle o))) = true) as -> by (apply dec_intro, hi_angle_le; split; lra). reflexivity.
Qed.
(** The angles of the result: max(0, amin) + k size, one for each k such that this is below
    min(360 - size, amax) + size. *)
Theorem C45_angles : forall data origin f w o, (0 < size o)%Qc ->
  let first := (if qle (amin o) 0 then 0 else amin o)%Qc in let last := (if qle (amax o) (ZQ 360 - size o) then amax o else ZQ 360 - size o)%Qc in
  (forall k e, nth_error (sample_per_angle_from data origin f w o) k = Some e -> fst e = first + NQ k * size o)%Qc /\
  (forall k, (k < length (sample_per_angle_from data origin f w o))%nat <-> (first + NQ k * size o < last + size o)%Qc).
Proof.
  intros data origin f w o HS first last.
  assert (first = lo_angle o) as ->. { unfold first, lo_angle, qmax. destruct (qle (amin o) 0) eqn:E1, (qle 0 (amin o)) eqn:E2; try reflexivity; [apply qle_true in E1, E2; apply Qcle_antisym; assumption|]. apply qle_false in E1, E2. exfalso. qlra. }
  assert (last = hi_angle o) as ->. { unfold last, hi_angle, qmin. destruct (qle (amax o) _) eqn:E1, (qle (ZQ 360 - size o)%Qc (amax o)) eqn:E2; try reflexivity; [apply qle_true in E1, E2; apply Qcle_antisym; assumption|]. apply qle_false in E1, E2. exfalso. qlra. }
  assert (length (sample_per_angle_from data origin f w o) = length (out_angles o)) as EL by (unfold sample_per_angle_from; rewrite map_length, combine_length, seq_length; lia).
  split.
  - intros k e He. assert (k < length (out_angles o))%nat as Hk by (rewrite <- EL; apply nth_error_Some; congruence).
    unfold sample_per_angle_from in He. rewrite nth_error_map in He. destruct (nth_error (combine _ _) k) as [[i a]|] eqn:EC; [|discriminate]. injection He as <-. cbn [fst snd].
    assert (In (i, a) (combine (seq 0 (length (out_angles o))) (out_angles o))) as HI by (eapply nth_error_In; exact EC).
    assert (nth_error (out_angles o) k = Some a) as E.
    { clear - EC. revert EC. generalize 0%nat at 1 as s. generalize (out_angles o). revert k. intros k l. revert k. induction l as [|x l IH]; intros k s E; [destruct k; discriminate|]. destruct k as [|k]; cbn in E |- *; [congruence|]. eapply IH. exact E. }
    rewrite out_angles_nth in E by exact Hk. congruence.
  - intros k. rewrite EL, out_angles_length. set (q := ((hi_angle o + size o - lo_angle o) / size o)%Qc). destruct (qceil_spec q) as [C1 C2].
    assert (q * size o = hi_angle o + size o - lo_angle o)%Qc as EQ by (unfold q; field; apply qpos_nz, HS).
    assert ((lo_angle o + NQ k * size o < hi_angle o + size o)%Qc <-> (NQ k < q)%Qc) as ->.
    { split; intros H.
      - destruct (Qclt_le_dec (NQ k) q) as [L|L]; [exact L|]. exfalso. assert (q * size o <= NQ k * size o)%Qc as HM by (apply Qcmult_le_compat_r; [exact L|apply Qclt_le_weak; exact HS]). rewrite EQ in HM. revert HM H. generalize (NQ k * size o)%Qc. intros v HM H. qlra.
      - assert (0 < (q - NQ k) * size o)%Qc as HM by (apply qmult_pos; [qlra'|exact HS]). revert HM. replace ((q - NQ k) * size o)%Qc with (q * size o - NQ k * size o)%Qc by ring. rewrite EQ. generalize (NQ k * size o)%Qc. intros v HM. qlra'. }
    split; intros H.
    + assert (Z.of_nat k < qceil q)%Z as HZ by lia. assert (ZQ (Z.of_nat k) + 1 <= ZQ (qceil q))%Qc as HQ by (rewrite <- ZQ_1, <- ZQ_add; apply ZQ_le; lia). unfold NQ. qlra'.
    + assert (Z.of_nat k < qceil q)%Z by (apply ZQ_lt; fold (NQ k); qlra'). lia.
Qed.
Print Assumptions C45_angles.
(** Every bin which is seen within the limits belongs to exactly one of the intervals [angle, angle + size),
    moved by 1e-6 degrees; each value is the weighted average of exactly the bins of its interval.
    Partial: bins straight left of the origin are excluded here, and angles above 360 - size are not
    sampled; both are shown below. *)
Definition interval (o : aopts) (angle : Qc) (a : R) : Prop := QR angle - micro < a <= QR angle + QR (size o) - micro.
Theorem C45_values_partial : forall data origin f w o k angle v, (Q2Qc (1 # 1000000) <= size o)%Qc -> (forall b, In b data -> ~ straight_left origin b) ->
  nth_error (sample_per_angle_from data origin f w o) k = Some (angle, v) ->
  forall used, selects (fun b => exists a, seen_at o origin b a /\ interval o angle a) data used ->
    ((0 < qsum (map w used))%Qc -> v * qsum (map w used) = qsum (map (fun b => f b * w b) used))%Qc /\
    ((qsum (map w used) <= 0)%Qc -> v = 0%Qc).
Proof.
  intros data origin f w o k angle v HS HN He used HU.
  assert (0 < size o)%Qc as HP by (eapply Qclt_le_trans; [|exact HS]; reflexivity).
  assert (length (sample_per_angle_from data origin f w o) = length (out_angles o)) as EL by (unfold sample_per_angle_from; rewrite map_length, combine_length, seq_length; lia).
  assert (k < length (out_angles o))%nat as Hk by (rewrite <- EL; apply nth_error_Some; congruence).
  unfold sample_per_angle_from in He. rewrite nth_error_map in He. destruct (nth_error (combine _ _) k) as [[i a]|] eqn:EC; [|discriminate]. cbn [option_map fst snd] in He. injection He as -> <-.
  assert (nth_error (out_angles o) k = Some angle /\ i = k) as [EA ->].
  { clear - EC. assert (forall (l : list Qc) s k i a, nth_error (combine (seq s (length l)) l) k = Some (i, a) -> nth_error l k = Some a /\ i = (s + k)%nat) as G.
    { clear. induction l as [|x l IH]; intros s k i a E; [destruct k; discriminate|]. destruct k as [|k]; cbn in E |- *; [injection E as <- <-; split; [reflexivity|lia]|]. apply IH in E as [E1 E2]. split; [exact E1|lia]. }
    apply G in EC. exact EC. }
  rewrite out_angles_nth in EA by exact Hk. injection EA as EA.
  assert (filter (fun b => match interval_of o origin b with Some j => Nat.eqb j k | None => false end) data = used) as ->.
  { symmetry. eapply selects_eq; [|exact HU]. intros b Hb. unfold interval_of. split.
    - intros H. destruct (limited_angle o origin b) as [a'|] eqn:EB; [|discriminate]. pose proof EB as EB'. apply limited_angle_seen in EB; [|apply HN, Hb]. exists a'. split; [exact EB|].
      destruct (in_interval_exists o HS a') as (j & Hj). { destruct EB as (B & _ & M1 & M2 & M3 & _). split; [apply lo_angle_le; split; lra|apply hi_angle_le; split; lra]. }
      change (QR (Q2Qc (1 # 1000000))) with eps in H. rewrite (nearest_interval o HS j a' Hj) in H. apply Nat.eqb_eq in H. subst j. destruct Hj as [_ Hj]. unfold interval, micro. rewrite <- EA. exact Hj.
    - intros (a' & HA & HI). assert (limited_angle o origin b = Some a') as -> by (apply limited_angle_seen; [apply HN, Hb|exact HA]).
      change (QR (Q2Qc (1 # 1000000))) with eps. rewrite (nearest_interval o HS k a'); [apply Nat.eqb_refl|]. split; [exact Hk|]. unfold interval, micro in HI. rewrite <- EA in HI. exact HI. }
  unfold average_or_0. split; intros H.
  - destruct used as [|b used]; [exfalso; cbn in H; discriminate H|]. assert (qlt 0 (qsum (map w (b :: used))) = true) as -> by (apply qlt_true; exact H). set (s := qsum (map w (b :: used))) in *. field. apply qpos_nz, H.
  - destruct used as [|b used]; [reflexivity|]. destruct (qlt 0 (qsum (map w (b :: used)))) eqn:E; [|reflexivity]. apply qlt_true in E. exfalso. revert E H. generalize (qsum (map w (b :: used))). intros q E H. qlra.
Qed.
Print Assumptions C45_values_partial.
Theorem C45_once_partial : forall data origin f w o b a, (Q2Qc (1 # 1000000) <= size o)%Qc -> seen_at o origin b a ->
  exists k e, nth_error (sample_per_angle_from data origin f w o) k = Some e /\ interval o (fst e) a /\
    forall j e', nth_error (sample_per_angle_from data origin f w o) j = Some e' -> interval o (fst e') a -> j = k.
Proof.
  intros data origin f w o b a HS HA. assert (0 < size o)%Qc as HP by (eapply Qclt_le_trans; [|exact HS]; reflexivity).
  assert (length (sample_per_angle_from data origin f w o) = length (out_angles o)) as EL by (unfold sample_per_angle_from; rewrite map_length, combine_length, seq_length; lia).
  destruct (in_interval_exists o HS a) as (k & Hk). { destruct HA as (B & _ & M1 & M2 & M3 & _). split; [apply lo_angle_le; split; lra|apply hi_angle_le; split; lra]. }
  destruct (C45_angles data origin f w o HP) as [HC _]. cbv zeta in HC.
  assert (forall j e, nth_error (sample_per_angle_from data origin f w o) j = Some e -> fst e = (lo_angle o + NQ j * size o)%Qc) as HF.
  { intros j e He. rewrite (HC j e He). f_equal. unfold lo_angle, qmax. destruct (qle (amin o) 0) eqn:E1, (qle 0 (amin o)) eqn:E2; try reflexivity; [apply qle_true in E1, E2; apply Qcle_antisym; assumption|]. apply qle_false in E1, E2. exfalso. qlra. }
  destruct (nth_error (sample_per_angle_from data origin f w o) k) as [e|] eqn:EK; [|exfalso; apply nth_error_None in EK; destruct Hk as [Hk _]; lia].
  exists k, e. split; [exact EK|]. split; [unfold interval, micro; rewrite (HF k e EK); apply Hk|].
  intros j e' Hj HI. apply (in_interval_unique o HS a); [|exact Hk]. split; [rewrite <- EL; apply nth_error_Some; congruence|]. unfold interval, micro in HI. rewrite (HF j e' Hj) in HI. exact HI.
Qed.
Print Assumptions C45_once_partial.
(** Finding: the last angle is 360 - size, so bins seen at larger angles are never sampled, also with the default
    limits.  Here a single bin at 315 degrees and intervals of 90 degrees. *)
Definition defaults (s : Qc) : aopts := mkA 0 (ZQ 360) 0 None s.
Definition single (x y : Qc) : bin := mkBin x y 1 1 1 1 1.
Theorem C45_full_circle_refuted : 
  direction (QR (bX (single 1 (ZQ (-1))) - 0)) (QR (bY (single 1 (ZQ (-1))) - 0)) 315 /\
  forall e, In e (sample_per_angle_from [single 1 (ZQ (-1))] (0%Qc, 0%Qc) bU (fun _ => 1%Qc) (defaults (ZQ 90))) -> snd e = 0%Qc.
Proof.
  assert (direction (QR (bX (single 1 (ZQ (-1))) - 0)) (QR (bY (single 1 (ZQ (-1))) - 0)) 315) as HD.
  { cbn [bX bY single]. rewrite !QR_sub, QR_0, QR_1. assert (QR (ZQ (-1)) = -1) as -> by (unfold QR; replace (this (ZQ (-1))) with (-1 # 1)%Q by reflexivity; unfold Q2R; cbn; lra).
    replace 315 with (-45 + 360) by ring. apply direction_full_turn. exists (sqrt 2). pose proof (sqrt_lt_R0 2 ltac:(lra)) as HS. split; [exact HS|].
    replace (-45 * PI / 180) with (- (PI / 4)) by field. rewrite cos_neg, sin_neg, cos_PI4, sin_PI4. split; field; lra. }
  split; [exact HD|]. intros e He. unfold sample_per_angle_from in He. apply in_map_iff in He as (p & <- & _). cbn [snd].
  assert (interval_of (defaults (ZQ 90)) (0%Qc, 0%Qc) (single 1 (ZQ (-1))) = None) as EN.
  { unfold interval_of. destruct (limited_angle _ _ _) as [a|] eqn:E; [|reflexivity]. exfalso. apply limited_angle_seen in E.
    - destruct E as (B & HD' & _ & _ & M & _). cbn [fst snd] in HD'. assert (a = 315) as -> by (eapply direction_same; [exact HD'|exact HD|lra]). cbn [size defaults] in M.
      assert (QR (ZQ 90) = 90) as HQ by (unfold QR; replace (this (ZQ 90)) with (90 # 1)%Q by reflexivity; unfold Q2R; cbn; lra). lra.
    - intros [HX _]. vm_compute in HX. discriminate HX. }
  cbn [filter]. rewrite EN. reflexivity.
Qed.
Print Assumptions C45_full_circle_refuted.
(** Finding: a bin straight left of the origin, at 180 degrees, is sampled at 0 degrees. *)
Theorem C45_left_axis_refuted : direction (QR (bX (single (ZQ (-1)) 0) - 0)) (QR (bY (single (ZQ (-1)) 0) - 0)) 180 /\
  exists e, nth_error (sample_per_angle_from [single (ZQ (-1)) 0] (0%Qc, 0%Qc) bU (fun _ => 1%Qc) (defaults (ZQ 90))) 0 = Some e /\ e = (0%Qc, 1%Qc).
Proof.
  assert (QR (ZQ (-1)) = -1) as HQ by (unfold QR; replace (this (ZQ (-1))) with (-1 # 1)%Q by reflexivity; unfold Q2R; cbn; lra).
  assert (Q2Qc (1 # 1000000) <= size (defaults (ZQ 90)))%Qc as HS by discriminate.
  split.
  - cbn [bX bY single]. rewrite !QR_sub, QR_0, HQ. exists 1. split; [lra|]. replace (180 * PI / 180) with PI by field. rewrite cos_PI, sin_PI. lra.
  - assert (out_angles (defaults (ZQ 90)) <> []) as HO by (vm_compute; discriminate).
    assert (interval_of (defaults (ZQ 90)) (0%Qc, 0%Qc) (single (ZQ (-1)) 0) = Some 0%nat) as EI.
    { unfold interval_of, limited_angle. cbn [fst snd bX bY single rmin rmax defaults].
      assert (bin_degrees (ZQ (-1) - 0)%Qc (0 - 0)%Qc = Some 0) as ->. { replace (0 - 0)%Qc with 0%Qc by (apply Qc_is_canon; reflexivity). apply bin_degrees_negative_axis. reflexivity. }
      assert (dec (Rle_dec (QR 0%Qc) (radius (ZQ (-1) - 0)%Qc (0 - 0)%Qc)) = true) as -> by (apply dec_intro; rewrite QR_0; apply sqrt_pos). cbn [andb].
      change (mkA 0 (ZQ 360) 0 None (ZQ 90)) with (defaults (ZQ 90)).
      assert (QR (ZQ 90) = 90) as H90 by (unfold QR; replace (this (ZQ 90)) with (90 # 1)%Q by reflexivity; unfold Q2R; cbn; lra).
      assert (QR (lo_angle (defaults (ZQ 90))) <= 0) as L1 by (apply lo_angle_le; cbn [amin defaults]; rewrite QR_0; lra).
      assert (0 <= QR (hi_angle (defaults (ZQ 90)))) as L2 by (apply hi_angle_le; cbn [amax size defaults]; rewrite QR_360, H90; lra).
      assert (dec (Rle_dec (QR (lo_angle (defaults (ZQ 90)))) 0) = true) as -> by (apply dec_intro; exact L1).
      assert (dec (Rle_dec 0 (QR (hi_angle (defaults (ZQ 90))))) = true) as -> by (apply dec_intro; exact L2). cbn [andb]. f_equal.
      change (QR (Q2Qc (1 # 1000000))) with eps. apply (nearest_interval (defaults (ZQ 90)) HS 0 0). split; [vm_compute; lia|].
      assert (QR (lo_angle (defaults (ZQ 90)) + NQ 0 * size (defaults (ZQ 90)))%Qc = 0) as ->. { rewrite <- QR_0. apply f_equal. apply Qc_is_canon. vm_compute. reflexivity. }
      cbn [size defaults]. rewrite H90. pose proof eps_pos. assert (eps < 1). { unfold eps. rewrite <- QR_1. apply QR_lt. reflexivity. } lra. }
    unfold sample_per_angle_from. destruct (out_angles (defaults (ZQ 90))) as [|a0 rest] eqn:EO; [congruence|].
    eexists. split; [reflexivity|]. cbn [fst snd filter]. rewrite EI. cbn [Nat.eqb]. 
    assert (a0 = 0%Qc) as ->. { apply (f_equal (fun l => nth 0 l 1%Qc)) in EO. cbn [nth] in EO. rewrite <- EO. apply Qc_is_canon. vm_compute. reflexivity. }
    reflexivity || (f_equal; apply Qc_is_canon; vm_compute; reflexivity).
Qed.
Print Assumptions C45_left_axis_refuted.
(** A case: a bin straight above the origin, intervals of 90 degrees. *)
Example C45_case : seen_at (defaults (ZQ 90)) (0%Qc, 0%Qc) (single 0 1) 90.
Proof.
  assert (QR (ZQ 90) = 90) as H90 by (unfold QR; replace (this (ZQ 90)) with (90 # 1)%Q by reflexivity; unfold Q2R; cbn; lra).
  split; [lra|]. cbn [fst snd bX bY single size defaults amin amax rmin rmax]. rewrite !QR_sub, QR_0, QR_1, QR_360, H90.
  split; [exists 1; replace (90 * PI / 180) with (PI / 2) by field; rewrite cos_PI2, sin_PI2; lra|]. split; [lra|]. split; [lra|]. split; [lra|]. exists 1. lra.
Qed.

(** ** C61 *)
(** The total momentum of the bins. *)
Definition momentum (data : list bin) : R * R := (QR (qsum (map (fun b => bU b * bM b)%Qc data)), QR (qsum (map (fun b => bV b * bM b)%Qc data))).
Theorem C61_direction : forall data fi c cl mu used,
  match cl with CNone => used = data | CField g => selects (fun b => c <= g b)%Qc data used | CUnknown => False end ->
  exists s a, snd (sample_value data fi LAngle (Some c) cl false mu) = Ok s /\ angle_of s = Some a /\
    (momentum used <> (0, 0) -> -180 < a <= 180 /\ direction (fst (momentum used)) (snd (momentum used)) a).
Proof.
  intros data fi c cl mu used HU.
  assert (exists sel, selection data (Some c) cl = Ok sel /\ filter sel data = used) as (sel & ES & EF).
  { destruct cl as [|g|]; [| |destruct HU].
    - exists (fun _ => true). split; [reflexivity|]. subst. clear. induction data; simpl; congruence.
    - eexists. split; [reflexivity|]. symmetry. eapply selects_eq; [|exact HU]. intros x _. apply qle_true. }
  unfold sample_value. cbn [rbind snd]. rewrite ES. cbn [rbind]. rewrite EF. eexists _, _. split; [reflexivity|]. split; [reflexivity|].
  intros HN. apply atan2_direction. unfold momentum in HN. destruct (Req_dec (QR (qsum (map (fun b => bU b * bM b)%Qc used))) 0) as [E|E]; [|left; exact E]. right. intros E'. apply HN. rewrite E, E'. reflexivity.
Qed.
Print Assumptions C61_direction.
(** The function of the library: with a weight, the direction of the weighted sum; and of each bin. *)
Theorem C61_mean_flow_angle : forall data w u v, u = QR (qsum (map (fun b => bU b * w b)%Qc data)) -> v = QR (qsum (map (fun b => bV b * w b)%Qc data)) -> u <> 0 \/ v <> 0 ->
  -180 < mean_flow_angle data w <= 180 /\ direction u v (mean_flow_angle data w).
Proof. intros data w u v -> -> H. apply atan2_direction. exact H. Qed.
Print Assumptions C61_mean_flow_angle.
Theorem C61_each_bin : forall data, Forall2 (fun b a => (bU b <> 0 \/ bV b <> 0)%Qc -> -180 < a <= 180 /\ direction (QR (bU b)) (QR (bV b)) a) data (flow_angles data).
Proof. intros data. induction data as [|b data IH]; constructor; [|exact IH]. intros H. apply atan2_direction. destruct H as [H|H]; [left|right]; apply QR_nz; exact H. Qed.
Print Assumptions C61_each_bin.
(** The direction determines the angle: *)
Theorem C61_unique : forall x y a b, direction x y a -> direction x y b -> -180 < a <= 180 -> -180 < b <= 180 -> a = b.
Proof. intros x y a b HA HB [] []. eapply direction_same; [exact HA|exact HB|lra]. Qed.
(** so positive factors of weights and velocities have no influence, and reversal is a half turn. *)
Definition faster (c : Qc) (b : bin) : bin := mkBin (bX b) (bY b) (bN b) (bT b) (bM b) (c * bU b) (c * bV b).
Lemma sum_factor (f g : bin -> Qc) c data : (forall b, f b = c * g b)%Qc -> QR (qsum (map f data)) = QR c * QR (qsum (map g data)).
Proof. intros H. rewrite <- QR_mul. f_equal. rewrite <- QcX.qsum_map_scale. f_equal. apply map_ext. exact H. Qed.
Theorem C61_scaled : forall data w c, (0 < c)%Qc -> (exists u v, u = QR (qsum (map (fun b => bU b * w b)%Qc data)) /\ v = QR (qsum (map (fun b => bV b * w b)%Qc data)) /\ (u <> 0 \/ v <> 0)) ->
  mean_flow_angle data (fun b => c * w b)%Qc = mean_flow_angle data w /\ ((forall b, w (faster c b) = w b) -> mean_flow_angle (map (faster c) data) w = mean_flow_angle data w).
Proof.
  intros data w c Hc (u & v & EU & EV & HN). destruct (C61_mean_flow_angle data w u v EU EV HN) as [HR HD]. assert (0 < QR c) as Hc' by (apply QR_pos; exact Hc).
  assert (QR c * u <> 0 \/ QR c * v <> 0) as HN'. { destruct HN as [H|H]; [left|right]; intros E; apply Rmult_integral in E as [E|E]; lra. }
  split.
  - destruct (C61_mean_flow_angle data (fun b => c * w b)%Qc (QR c * u) (QR c * v)) as [HR' HD'].
    + rewrite EU. symmetry. apply sum_factor. intros; ring.
    + rewrite EV. symmetry. apply sum_factor. intros; ring.
    + exact HN'.
    + eapply C61_unique; [exact HD'| |exact HR'|exact HR]. apply direction_scale; assumption.
  - intros HW. destruct (C61_mean_flow_angle (map (faster c) data) w (QR c * u) (QR c * v)) as [HR' HD'].
    + rewrite EU. symmetry. rewrite map_map. apply (sum_factor (fun b => bU (faster c b) * w (faster c b))%Qc). intros b. rewrite HW. cbn [faster bU]. ring.
    + rewrite EV. symmetry. rewrite map_map. apply (sum_factor (fun b => bV (faster c b) * w (faster c b))%Qc). intros b. rewrite HW. cbn [faster bV]. ring.
    + exact HN'.
    + eapply C61_unique; [exact HD'| |exact HR'|exact HR]. apply direction_scale; assumption.
Qed.
Print Assumptions C61_scaled.
Theorem C61_reversed : forall data w, (forall b, w (faster (ZQ (-1)) b) = w b) -> (exists u v, u = QR (qsum (map (fun b => bU b * w b)%Qc data)) /\ v = QR (qsum (map (fun b => bV b * w b)%Qc data)) /\ (u <> 0 \/ v <> 0)) ->
  mean_flow_angle (map (faster (ZQ (-1))) data) w = mean_flow_angle data w + 180 \/ mean_flow_angle (map (faster (ZQ (-1))) data) w = mean_flow_angle data w - 180.
Proof.
  intros data w HW (u & v & EU & EV & HN). destruct (C61_mean_flow_angle data w u v EU EV HN) as [HR HD].
  assert (QR (ZQ (-1)) = -1) as HQ by (unfold QR; replace (this (ZQ (-1))) with (-1 # 1)%Q by reflexivity; unfold Q2R; cbn; lra).
  destruct (C61_mean_flow_angle (map (faster (ZQ (-1))) data) w (- u) (- v)) as [HR' HD'].
  - rewrite EU. symmetry. rewrite map_map. rewrite (sum_factor _ (fun b => bU b * w b)%Qc (ZQ (-1))); [rewrite HQ; ring|]. intros b. rewrite HW. cbn [faster bU]. ring.
  - rewrite EV. symmetry. rewrite map_map. rewrite (sum_factor _ (fun b => bV b * w b)%Qc (ZQ (-1))); [rewrite HQ; ring|]. intros b. rewrite HW. cbn [faster bV]. ring.
  - destruct HN; [left|right]; lra.
  - apply direction_half_turn in HD. destruct (Rle_dec (mean_flow_angle data w) 0) as [L|L].
    + left. eapply C61_unique; [exact HD'|exact HD|exact HR'|lra].
    + right. apply direction_half_turn in HD'. replace (- - u) with u in HD' by ring. replace (- - v) with v in HD' by ring.
      apply direction_half_turn in HD. replace (- - u) with u in HD by ring. replace (- - v) with v in HD by ring.
      assert (mean_flow_angle (map (faster (ZQ (-1))) data) w + 180 + 360 = mean_flow_angle data w + 180 + 180); [|lra].
      eapply direction_same; [apply direction_full_turn; exact HD'|exact HD|lra].
Qed.
Print Assumptions C61_reversed.
Example C61_case : momentum [mkBin 0 0 1 1 (ZQ 2) 1 1] <> (0, 0).
Proof. intros H. injection H as H _. revert H. apply QR_nz. vm_compute. discriminate. Qed.
