(** Properties C70-C72: contact angles of interface files. *)
From Coq Require Import String Reals.
From Verif.Base Require Import QcX QcR Res Np Sort Bytes ListX.
From Coq Require Import Lra.
From Verif.Model Require Import ContactAngle Table InterfaceFiles InterfaceAngle.
From Verif.Spec Require Import AngleSpec SecantSpec CollectSpec.
From Verif.Proofs Require Import AngleP TableP InterfaceAngleP.
From Verif.Props Require InterfaceFilesProps.
Local Open Scope list_scope.
Local Notation length := List.length.

(** ** C70: measured angles *)
(** The angle is that of the line from the lowest point to the point nearest to the height above it, between 0 and 180 degrees;
    for the right edge it is measured from the other side. *)
Theorem C70_secant : forall edge height k p0 p, lowest_first edge -> chosen edge height k p0 p ->
  (p <> p0 -> exists a b, measure_angle edge false height = Ok (Some a) /\ measure_angle edge true height = Ok (Some b) /\
     direction_angle (QR (fst p - fst p0)) (QR (snd p - snd p0)) a /\ direction_angle (QR (fst p0 - fst p)) (QR (snd p - snd p0)) b) /\
  (p = p0 -> measure_angle edge false height = Ok None /\ measure_angle edge true height = Ok None).
Proof.
  intros edge height k p0 p (p0' & H0 & Hlow) HC. pose proof HC as (C1 & C2 & _). rewrite C1 in H0. injection H0 as <-.
  assert (0 <= snd p - snd p0) as Hy by (specialize (Hlow p (nth_error_In _ _ C2)); qlra').
  unfold measure_angle. rewrite !(secant_of _ _ _ _ _ _ HC). cbn [rmap rbind]. cbv iota. split; [intros Hne|intros ->].
  - assert (forall dx, dx = fst p - fst p0 \/ dx = - (fst p - fst p0) -> exists a, vector_angle (dx, snd p - snd p0) = Some a /\ direction_angle (QR dx) (QR (snd p - snd p0)) a) as G.
    { intros dx Hdx. destruct (vector_angle (dx, snd p - snd p0)) as [a|] eqn:E; [exists a; split; [reflexivity|exact (vector_direction _ _ _ Hy E)]|].
      apply vector_none in E. destruct E as [E1 E2]. exfalso. apply Hne. destruct p as [x y], p0 as [x0 y0]. cbn [fst snd] in *. f_equal; destruct Hdx; subst; apply Qcle_antisym; qlra'. }
    destruct (G _ (or_introl eq_refl)) as (a & Ea & Da). destruct (G _ (or_intror eq_refl)) as (b & Eb & Db). exists a, b. rewrite Ea, Eb.
    split; [reflexivity|]. split; [reflexivity|]. split; [exact Da|]. replace (fst p0 - fst p) with (- (fst p - fst p0)) by ring. exact Db.
  - assert (forall dx, dx = 0 -> vector_angle (dx, snd p0 - snd p0) = None) as G by (intros dx ->; apply vector_none; split; ring).
    split; rewrite G; try reflexivity; ring.
Qed.
Print Assumptions C70_secant.
(** There always is such a point. *)
Theorem C70_total : forall edge height, edge <> [] -> exists k p0 p, chosen edge height k p0 p.
Proof. intros edge height H. destruct (secant_chosen edge false height H) as (k & p0 & p & HC & _). exists k, p0, p. exact HC. Qed.
Print Assumptions C70_total.
(** The two angles of a secant add up to 180 degrees, so left and right are measured alike in mirror images. *)
Lemma chosen_map (f : Qc * Qc -> Qc * Qc) edge height height' k p0 p : chosen edge height k p0 p ->
  (forall p q, qabs (snd p - snd p0 - height) <= qabs (snd q - snd p0 - height) <-> qabs (snd (f p) - snd (f p0) - height') <= qabs (snd (f q) - snd (f p0) - height')) ->
  chosen (map f edge) height' k (f p0) (f p).
Proof.
  intros (C1 & C2 & C3 & C4) H. split; [rewrite nth_error_map, C1; reflexivity|]. split; [rewrite nth_error_map, C2; reflexivity|]. split.
  - intros q Hq. apply in_map_iff in Hq. destruct Hq as (q' & <- & Hq). apply (proj1 (H _ _)). apply C3. exact Hq.
  - intros j q Hj Hq. rewrite nth_error_map in Hq. destruct (nth_error edge j) as [q'|] eqn:E; [|discriminate]. injection Hq as <-.
    apply Qcnot_le_lt. intros N. apply (proj2 (H _ _)) in N. exact (Qclt_not_le _ _ (C4 j q' Hj E) N).
Qed.
Lemma measure_same (f : Qc * Qc -> Qc * Qc) (edge : list (Qc * Qc)) height height' (right right' : bool) : edge <> [] ->
  (forall p0 p q, qabs (snd p - snd p0 - height) <= qabs (snd q - snd p0 - height) <-> qabs (snd (f p) - snd (f p0) - height') <= qabs (snd (f q) - snd (f p0) - height')) ->
  (forall p0 p, In p edge -> nth_error edge 0 = Some p0 -> vector_angle (if right' then - (fst (f p) - fst (f p0)) else fst (f p) - fst (f p0), snd (f p) - snd (f p0)) =
               vector_angle (if right then - (fst p - fst p0) else fst p - fst p0, snd p - snd p0)) ->
  measure_angle (map f edge) right' height' = measure_angle edge right height.
Proof.
  intros Hne H HV. destruct (secant_chosen edge right height Hne) as (k & p0 & p & HC & E). unfold measure_angle. rewrite E.
  rewrite (secant_of _ right' height' _ _ _ (chosen_map f edge height height' k p0 p HC (H p0))). cbn [rmap rbind]. apply f_equal. destruct HC as (C1 & C2 & _).
  apply HV; [exact (nth_error_In _ _ C2)|exact C1].
Qed.
Theorem C70_mirror : forall edge height, edge <> [] -> measure_angle (mirrored edge) true height = measure_angle edge false height.
Proof.
  intros edge height Hne. apply measure_same; [exact Hne|intros; reflexivity|]. intros p0 p _ _. cbn [fst snd]. do 2 f_equal. ring.
Qed.
Print Assumptions C70_mirror.
Theorem C70_shift : forall edge height right a b, edge <> [] -> measure_angle (shifted a b edge) right height = measure_angle edge right height.
Proof.
  intros edge height right a b Hne. apply measure_same; [exact Hne| |].
  - intros p0 p q. cbn [snd]. replace (snd p + b - (snd p0 + b)) with (snd p - snd p0) by ring. replace (snd q + b - (snd p0 + b)) with (snd q - snd p0) by ring. reflexivity.
  - intros p0 p _ _. cbn [fst snd]. replace (fst p + a - (fst p0 + a)) with (fst p - fst p0) by ring. replace (snd p + b - (snd p0 + b)) with (snd p - snd p0) by ring. reflexivity.
Qed.
Print Assumptions C70_shift.
Theorem C70_enlarge : forall edge height right k, lowest_first edge -> 0 < k -> measure_angle (enlarged k edge) right (k * height) = measure_angle edge right height.
Proof.
  intros edge height right k (q0 & H0 & Hlow) Hk. apply measure_same.
  - intros ->. discriminate.
  - assert (forall x, qabs (k * x) = k * qabs x) as A.
    { intros x. unfold qabs. destruct (qle_spec 0 x) as [L|L]; destruct (qle_spec 0 (k * x)) as [M|M]; try ring; exfalso.
      - apply M. apply qmult_nonneg; [apply qc_lt_le; exact Hk|exact L].
      - apply Qcnot_le_lt in L. apply (Qclt_not_le _ _ L). replace x with (k * x / k) by (field; apply qpos_nz; exact Hk). apply qle_div_iff; [exact Hk|]. rewrite Qcmult_0_l. exact M. }
    intros p0 p q. cbn [snd]. replace (k * snd p - k * snd p0 - k * height) with (k * (snd p - snd p0 - height)) by ring. replace (k * snd q - k * snd p0 - k * height) with (k * (snd q - snd p0 - height)) by ring.
    rewrite !A. split; intros H; [apply qmult_le_compat_l; [apply qc_lt_le; exact Hk|exact H]|].
    apply Qcnot_lt_le. intros N. apply (Qclt_not_le (k * qabs (snd q - snd p0 - height)) (k * qabs (snd p - snd p0 - height))); [|exact H].
    apply Qclt_minus_iff. replace (k * qabs (snd p - snd p0 - height) + - (k * qabs (snd q - snd p0 - height))) with (k * (qabs (snd p - snd p0 - height) - qabs (snd q - snd p0 - height))) by ring.
    apply qmult_pos; [exact Hk|]. apply Qclt_minus_iff in N. exact N.
  - intros p0 p Hp Hp0. cbn [fst snd]. rewrite H0 in Hp0. injection Hp0 as <-. apply vector_same with k; [exact Hk|specialize (Hlow p Hp); qlra'| |ring]. destruct right; ring.
Qed.
Print Assumptions C70_enlarge.
(** A straight edge has its angle at every height above the lowest point. *)
Theorem C70_straight : forall edge height right p0 m a, lowest_first edge -> nth_error edge 0 = Some p0 ->
  (forall q, In q edge -> q = p0 \/ (snd p0 < snd q /\ fst q - fst p0 = m * (snd q - snd p0))) ->
  measure_angle edge right height = Ok (Some a) -> direction_angle (if right then - QR m else QR m) 1 a.
Proof.
  intros edge height right p0 m a HL H0 HS HM. destruct (C70_total edge height) as (k & p0' & p & HC); [intros ->; discriminate|].
  pose proof HC as (C1 & C2 & _). rewrite H0 in C1. injection C1 as <-. destruct (C70_secant _ _ _ _ _ HL HC) as [HA HB].
  destruct (HS p (nth_error_In _ _ C2)) as [-> | [Hy Hx]]; [destruct (HB eq_refl) as [B1 B2]; destruct right; congruence|].
  destruct HA as (a' & b' & E1 & E2 & D1 & D2); [intros ->; apply (Qclt_not_le _ _ Hy); apply Qcle_refl|].
  assert (0 < QR (snd p - snd p0))%R as Hpos. { apply QR_pos. qlra'. }
  assert (forall z, direction_angle (QR (snd p - snd p0) * z) (QR (snd p - snd p0)) a -> direction_angle z 1 a) as G.
  { intros z HD. apply (direction_scale (/ QR (snd p - snd p0))) in HD; [|apply Rinv_0_lt_compat; exact Hpos].
    rewrite <- Rmult_assoc, Rinv_l, Rmult_1_l in HD by lra. exact HD. }
  apply G. destruct right.
  - rewrite E2 in HM. injection HM as <-. replace (QR (snd p - snd p0) * - QR m)%R with (QR (fst p0 - fst p)); [exact D2|].
    replace (fst p0 - fst p) with (- (fst p - fst p0)) by ring. rewrite Hx, QR_opp, QR_mul. ring.
  - rewrite E1 in HM. injection HM as <-. replace (QR (snd p - snd p0) * QR m)%R with (QR (fst p - fst p0)); [exact D1|]. rewrite Hx, QR_mul. ring.
Qed.
Print Assumptions C70_straight.

(** On a circular droplet the secant to the point after an arc [s] has the contact angle less half the arc: the measured angle is
    always too small, and the less so the lower the height. *)
Lemma sin_minus_half t s : (sin t - sin (t - s) = 2 * sin (s / 2) * cos (t - s / 2))%R.
Proof.
  replace (sin t) with (sin ((t - s / 2) + s / 2)) by (f_equal; field). replace (t - s)%R with ((t - s / 2) - s / 2)%R by field.
  generalize (t - s / 2)%R. intros u. generalize (s / 2)%R. intros v. rewrite sin_plus, sin_minus. ring.
Qed.
Lemma cos_minus_half t s : (cos (t - s) - cos t = 2 * sin (s / 2) * sin (t - s / 2))%R.
Proof.
  replace (cos t) with (cos ((t - s / 2) + s / 2)) by (f_equal; field). replace (t - s)%R with ((t - s / 2) - s / 2)%R by field.
  generalize (t - s / 2)%R. intros u. generalize (s / 2)%R. intros v. rewrite cos_plus, cos_minus. ring.
Qed.
Theorem C70_circle : forall edge height k p0 p r t x0 s a, lowest_first edge -> chosen edge height k p0 p ->
  (0 < r)%R -> (0 < s <= t)%R -> (t < PI)%R -> on_droplet r t x0 0 p0 -> on_droplet r t x0 s p ->
  measure_angle edge false height = Ok (Some a) -> a = degrees (t - s / 2).
Proof.
  intros edge height k p0 p r t x0 s a HL HC Hr Hs Ht [X0 Y0] [X1 Y1] HM. destruct (C70_secant _ _ _ _ _ HL HC) as [HA HB].
  pose proof PI_RGT_0 as HP. assert (0 < sin (s / 2))%R as HS by (apply sin_gt_0; lra).
  assert (QR (fst p - fst p0) = 2 * r * sin (s / 2) * cos (t - s / 2))%R as EX.
  { rewrite QR_sub, X0, X1, Rminus_0_r. pose proof (sin_minus_half t s) as E. replace (sin (t - s)) with (sin t - 2 * sin (s / 2) * cos (t - s / 2))%R by lra. ring. }
  assert (QR (snd p - snd p0) = 2 * r * sin (s / 2) * sin (t - s / 2))%R as EY.
  { rewrite QR_sub, Y0, Y1, Rminus_0_r. pose proof (cos_minus_half t s) as E. replace (cos (t - s)) with (cos t + 2 * sin (s / 2) * sin (t - s / 2))%R by lra. ring. }
  assert (p <> p0) as Hne. { intros ->. destruct (HB eq_refl) as [B1 _]. rewrite B1 in HM. discriminate. }
  destruct (HA Hne) as (a' & b' & E1 & _ & D1 & _). rewrite E1 in HM. injection HM as <-.
  apply (direction_unique _ _ _ _ D1). split.
  - unfold degrees. assert (0 < / PI)%R as HI by (apply Rinv_0_lt_compat; exact HP). unfold Rdiv. split; [apply Rmult_le_pos; [nra|lra]|].
    replace 180%R with (PI * 180 * / PI)%R at 2 by (field; lra). apply Rmult_le_compat_r; [lra|]. nra.
  - exists (2 * r * sin (s / 2))%R. rewrite degrees_rad. split; [nra|]. split; assumption.
Qed.
Print Assumptions C70_circle.

(** Refuted: there is no angle (NaN) for heights up to half of the distance between the lowest points. *)
Theorem C70_low_height_refuted : forall p0 p1 rest height right, snd p0 < snd p1 -> (forall q, In q rest -> snd p1 <= snd q) ->
  height <= (snd p1 - snd p0) / ZQ 2 -> measure_angle (p0 :: p1 :: rest) right height = Ok None.
Proof.
  intros p0 p1 rest height right Hy Hrest Hh. apply qle_div_iff in Hh; [|apply qlt_true; reflexivity].
  assert (forall q, In q (p1 :: rest) -> qabs (snd p0 - snd p0 - height) <= qabs (snd q - snd p0 - height)) as N.
  { intros q Hq. assert (snd p1 <= snd q) as Hq1 by (destruct Hq as [<- | Hq]; [apply Qcle_refl|apply Hrest; exact Hq]).
    assert (ZQ 2 = 1 + 1) as E2 by (apply Qc_is_canon; reflexivity). rewrite E2 in Hh.
    assert (height + height <= snd p1 - snd p0) as Hh2 by (replace (height + height) with (height * (1 + 1)) by ring; exact Hh).
    apply qabs_le. unfold qabs. destruct (qle_spec 0 (snd q - snd p0 - height)) as [L|L]; [split; qlra'|]. apply Qcnot_le_lt in L.
    exfalso. apply (Qclt_not_le _ _ L). destruct (qle_spec 0 height) as [M|M]; [qlra'|apply Qcnot_le_lt in M; qlra']. }
  assert (chosen (p0 :: p1 :: rest) height 0 p0 p0) as HC.
  { split; [reflexivity|]. split; [reflexivity|]. split; [|intros j q Hj; lia]. intros q [<- | Hq]; [apply Qcle_refl|apply N; exact Hq]. }
  unfold measure_angle. rewrite (secant_of _ right _ _ _ _ HC). cbn [rmap rbind].
  assert (forall dx, dx = 0 -> vector_angle (dx, snd p0 - snd p0) = None) as G by (intros dx ->; apply vector_none; split; ring).
  rewrite G; [reflexivity|destruct right; ring].
Qed.
Print Assumptions C70_low_height_refuted.

(** ** C71: angles of circular segments *)
(** [m] is the largest height of the points. *)
Definition top_of (edge : list (Qc * Qc)) (m : Qc) : Prop := (exists p, In p edge /\ snd p = m) /\ forall p, In p edge -> snd p <= m.
Lemma top_max edge m : top_of edge m -> list_max (map snd edge) = Some m.
Proof.
  intros ((p & Hp & E) & H). apply list_max_spec. split; [apply in_map_iff; exists p; auto|]. intros y Hy. apply in_map_iff in Hy. destruct Hy as (q & <- & Hq). apply H. exact Hq.
Qed.
Lemma top_exists edge : edge <> [] -> exists m, top_of edge m.
Proof.
  intros H. destruct (list_max (map snd edge)) as [m|] eqn:E; [|apply list_max_none in E; destruct edge; [contradiction|discriminate]].
  exists m. apply list_max_spec in E. destruct E as [E1 E2]. split; [apply in_map_iff in E1; destruct E1 as (p & E & Hp); exists p; auto|].
  intros p Hp. apply E2. apply in_map_iff. exists p. auto.
Qed.
Lemma fit_of l r pl pr a b : nth_error l 0 = Some pl -> nth_error r 0 = Some pr -> top_of l a -> top_of r b ->
  fit_angle_from_segment l r = Ok (segment_angle (fst pr - fst pl, (a + b) / (1 + 1))).
Proof.
  intros Hl Hr Ha Hb. destruct l as [|[xl yl] l]; [discriminate|]. destruct r as [|[xr yr] r]; [discriminate|]. injection Hl as <-. injection Hr as <-.
  unfold fit_angle_from_segment, segment. rewrite (top_max _ _ Ha), (top_max _ _ Hb). cbn [of_option rbind rmap fst]. do 2 f_equal.
  unfold qmean. cbn [qsum length fold_right]. f_equal. replace (NQ 2) with (1 + 1) by (apply Qc_is_canon; reflexivity). f_equal. f_equal. ring.
Qed.
Lemma half_angle t : (0 < t < PI)%R -> ((1 - cos t) / sin t = tan (t / 2))%R.
Proof.
  intros Ht. assert (0 < sin t)%R as HS by (apply sin_gt_0; lra). assert (0 < sin (t / 2))%R as HS2 by (apply sin_gt_0; lra). assert (0 < cos (t / 2))%R as HC2 by (apply cos_gt_0; lra).
  assert (cos t = 1 - 2 * sin (t / 2) * sin (t / 2))%R as EC. { rewrite <- cos_2a_sin. f_equal. field. }
  assert (sin t = 2 * sin (t / 2) * cos (t / 2))%R as ES. { rewrite <- sin_2a. f_equal. field. }
  rewrite EC, ES. unfold tan. field. lra.
Qed.
(** The angle is exact for circular droplets on the line y = 0: feet at a distance of 2 r sin t and tops of height r (1 - cos t)
    give the contact angle t. *)
Theorem C71_circle : forall l r pl pr a b rad t, nth_error l 0 = Some pl -> nth_error r 0 = Some pr -> top_of l a -> top_of r b ->
  (0 < rad)%R -> (0 < t < PI)%R -> (QR (fst pr) - QR (fst pl) = 2 * rad * sin t)%R ->
  QR a = (rad * (1 - cos t))%R -> QR b = (rad * (1 - cos t))%R ->
  fit_angle_from_segment l r = Ok (Some (degrees t)).
Proof.
  intros l r pl pr a b rad t Hl Hr Ha Hb Hrad Ht HX HA HB. rewrite (fit_of l r pl pr a b Hl Hr Ha Hb). apply f_equal. unfold segment_angle.
  assert (0 < sin t)%R as HS by (apply sin_gt_0; lra).
  assert (QR (fst pr - fst pl) = 2 * rad * sin t)%R as HX' by (rewrite QR_sub; exact HX).
  destruct (qeq_spec (fst pr - fst pl) 0) as [E|E]; [exfalso; rewrite E, QR_0 in HX'; nra|]. apply f_equal.
  assert (QR ((a + b) / (1 + 1)) = rad * (1 - cos t))%R as ->.
  { rewrite QR_div by (intros K; discriminate K). rewrite !QR_add, HA, HB, QR_1. field. }
  rewrite HX'. replace (2 * (rad * (1 - cos t)) / (2 * rad * sin t))%R with ((1 - cos t) / sin t)%R by (field; lra).
  rewrite half_angle by exact Ht. unfold degrees. rewrite atan_tan by lra. field. apply PI_neq0.
Qed.
Print Assumptions C71_circle.
(** Whatever the interface is: if the right foot is to the right of the left one, and the (mean) top is above y = 0, the angle is the
    contact angle of the circular segment with this chord and this height. *)
Theorem C71_segment : forall l r pl pr a b, nth_error l 0 = Some pl -> nth_error r 0 = Some pr -> top_of l a -> top_of r b ->
  fst pl < fst pr -> 0 < a + b ->
  exists rad t, (0 < rad)%R /\ (0 < t < PI)%R /\ (QR (fst pr) - QR (fst pl) = 2 * rad * sin t)%R /\ ((QR a + QR b) / 2 = rad * (1 - cos t))%R /\
    fit_angle_from_segment l r = Ok (Some (degrees t)).
Proof.
  intros l r pl pr a b Hl Hr Ha Hb HX HH. rewrite (fit_of l r pl pr a b Hl Hr Ha Hb). unfold segment_angle.
  destruct (qeq_spec (fst pr - fst pl) 0) as [E|E]; [exfalso; apply (Qclt_not_le _ _ HX); qlra'|].
  assert (QR ((a + b) / (1 + 1)) = (QR a + QR b) / 2)%R as ->. { rewrite QR_div by (intros K; discriminate K). rewrite !QR_add, QR_1. f_equal. }
  rewrite QR_sub. apply QR_lt in HX. apply QR_pos in HH. rewrite QR_add in HH. set (c := (QR (fst pr) - QR (fst pl))%R). assert (0 < c)%R as Hc by (unfold c; lra).
  set (h := ((QR a + QR b) / 2)%R). assert (0 < h)%R as Hh by (unfold h; lra).
  set (u := atan (2 * h / c)). pose proof (atan_bound (2 * h / c)) as HB. fold u in HB.
  assert (0 < 2 * h / c)%R as HQ by (apply Rdiv_lt_0_compat; lra). assert (0 < u)%R as Hu. { unfold u. rewrite <- atan_0. apply atan_increasing. exact HQ. }
  assert (tan u = 2 * h / c)%R as HT by apply tan_atan.
  assert (0 < sin u)%R as HS by (apply sin_gt_0; lra). assert (0 < cos u)%R as HC by (apply cos_gt_0; lra).
  assert (0 < sin (2 * u))%R as HS2 by (apply sin_gt_0; lra).
  exists (c / (2 * sin (2 * u)))%R, (2 * u)%R. split; [apply Rdiv_lt_0_compat; lra|]. split; [lra|]. split; [field; lra|]. split.
  - rewrite sin_2a, cos_2a_sin. assert (h = c / 2 * tan u)%R as Eh by (rewrite HT; field; lra). rewrite Eh. unfold tan. field. lra.
  - do 2 apply f_equal. unfold degrees. field. apply PI_neq0.
Qed.
Print Assumptions C71_segment.
(** Feet at the same place: the angle is 180 degrees (a full circle touching the line) if the top is above the line. *)
Theorem C71_touching : forall l r pl pr a b, nth_error l 0 = Some pl -> nth_error r 0 = Some pr -> top_of l a -> top_of r b ->
  fst pl = fst pr -> (0 < a + b -> fit_angle_from_segment l r = Ok (Some 180%R)) /\ (a + b = 0 -> fit_angle_from_segment l r = Ok None) /\
  (a + b < 0 -> fit_angle_from_segment l r = Ok (Some (-180)%R)).
Proof.
  intros l r pl pr a b Hl Hr Ha Hb HX. rewrite (fit_of l r pl pr a b Hl Hr Ha Hb). unfold segment_angle.
  assert (qeq (fst pr - fst pl) 0 = true) as -> by (apply qeq_true; rewrite HX; ring).
  assert (a + b = (a + b) / (1 + 1) + (a + b) / (1 + 1)) as E by (field; intros K; discriminate K). set (h := (a + b) / (1 + 1)) in *. clearbody h. rewrite E. clear E.
  assert (forall x, 2 * degrees x = x * 2 * (180 / PI))%R as D by (intros; unfold degrees; field; apply PI_neq0). rewrite !D.
  split; [|split]; intros H.
  - rewrite (proj2 (qlt_true 0 h)) by qlra'. do 2 apply f_equal. field. apply PI_neq0.
  - assert (h = 0) as -> by qlra'. reflexivity.
  - rewrite (proj2 (qlt_false 0 h)) by qlra'. rewrite (proj2 (qlt_true h 0)) by qlra'. do 2 apply f_equal. field. apply PI_neq0.
Qed.
Print Assumptions C71_touching.
(** Moving the droplet along x and enlarging it do not change the angle. *)
Lemma top_shift edge a b m : top_of edge m -> top_of (shifted a b edge) (m + b).
Proof.
  intros ((p & Hp & E) & H). split; [exists (fst p + a, snd p + b); split; [apply in_map_iff; exists p; auto|cbn; rewrite E; reflexivity]|].
  intros q Hq. apply in_map_iff in Hq. destruct Hq as (q' & <- & Hq). cbn [snd]. apply Qcplus_le_compat; [apply H; exact Hq|apply Qcle_refl].
Qed.
Lemma top_enlarge edge k m : 0 < k -> top_of edge m -> top_of (enlarged k edge) (k * m).
Proof.
  intros Hk ((p & Hp & E) & H). split; [exists (k * fst p, k * snd p); split; [apply in_map_iff; exists p; auto|cbn; rewrite E; reflexivity]|].
  intros q Hq. apply in_map_iff in Hq. destruct Hq as (q' & <- & Hq). cbn [snd]. apply qmult_le_compat_l; [apply qc_lt_le; exact Hk|apply H; exact Hq].
Qed.
Lemma nonempty_first {A} (l : list A) : l <> [] -> exists p, nth_error l 0 = Some p.
Proof. destruct l as [|p l]; [contradiction|]. exists p. reflexivity. Qed.
Theorem C71_shift : forall l r a, l <> [] -> r <> [] -> fit_angle_from_segment (shifted a 0 l) (shifted a 0 r) = fit_angle_from_segment l r.
Proof.
  intros l r a Hl Hr. destruct (nonempty_first l Hl) as (pl & El). destruct (nonempty_first r Hr) as (pr & Er). destruct (top_exists l Hl) as (ml & Tl). destruct (top_exists r Hr) as (mr & Tr).
  rewrite (fit_of l r pl pr ml mr El Er Tl Tr).
  rewrite (fit_of (shifted a 0 l) (shifted a 0 r) (fst pl + a, snd pl + 0) (fst pr + a, snd pr + 0) (ml + 0) (mr + 0));
    [|unfold shifted; rewrite nth_error_map, El; reflexivity|unfold shifted; rewrite nth_error_map, Er; reflexivity|apply top_shift; exact Tl|apply top_shift; exact Tr].
  cbn [fst]. replace (fst pr + a - (fst pl + a)) with (fst pr - fst pl) by ring. rewrite !Qcplus_0_r. reflexivity.
Qed.
Print Assumptions C71_shift.
Theorem C71_enlarge : forall l r k, l <> [] -> r <> [] -> 0 < k -> fit_angle_from_segment (enlarged k l) (enlarged k r) = fit_angle_from_segment l r.
Proof.
  intros l r k Hl Hr Hk. destruct (nonempty_first l Hl) as (pl & El). destruct (nonempty_first r Hr) as (pr & Er). destruct (top_exists l Hl) as (ml & Tl). destruct (top_exists r Hr) as (mr & Tr).
  rewrite (fit_of l r pl pr ml mr El Er Tl Tr).
  rewrite (fit_of (enlarged k l) (enlarged k r) (k * fst pl, k * snd pl) (k * fst pr, k * snd pr) (k * ml) (k * mr));
    [|unfold enlarged; rewrite nth_error_map, El; reflexivity|unfold enlarged; rewrite nth_error_map, Er; reflexivity|apply top_enlarge; assumption|apply top_enlarge; assumption].
  cbn [fst]. apply f_equal. replace (k * fst pr - k * fst pl) with (k * (fst pr - fst pl)) by ring.
  replace ((k * ml + k * mr) / (1 + 1)) with (k * ((ml + mr) / (1 + 1))) by (unfold Qcdiv; ring).
  generalize (fst pr - fst pl) ((ml + mr) / (1 + 1)). intros c h. assert (k <> 0) as Nk by (apply qpos_nz; exact Hk).
  unfold segment_angle. destruct (qeq_spec c 0) as [->|Ec].
  - replace (k * 0) with 0 by ring. rewrite qeq_refl.
    assert (forall z, qlt 0 (k * z) = qlt 0 z) as P.
    { intros z. destruct (qlt_spec 0 z) as [H|H]; [apply qlt_true, qmult_pos; assumption|]. apply qlt_false. apply Qcnot_lt_le in H.
      replace (k * z) with (- (k * - z)) by ring. assert (0 <= k * - z) by (apply qmult_nonneg; [apply qc_lt_le; exact Hk|qlra']). qlra'. }
    rewrite P. assert (qlt (k * h) 0 = qlt h 0) as ->; [|reflexivity].
    specialize (P (- h)). destruct (qlt_spec h 0) as [H|H]; destruct (qlt_spec 0 (- h)) as [H'|H']; try reflexivity; try (exfalso; apply H'; qlra'); try (exfalso; apply H; qlra').
    + apply qlt_true in P. apply qlt_true. replace (k * - h) with (- (k * h)) in P by ring. generalize dependent (k * h). intros z P. qlra'.
    + apply qlt_false in P. apply qlt_false. replace (k * - h) with (- (k * h)) in P by ring. generalize dependent (k * h). intros z P. qlra'.
  - destruct (qeq_spec (k * c) 0) as [E|E]; [exfalso; destruct (Qcmult_integral _ _ E); contradiction|]. do 4 apply f_equal. rewrite !QR_mul.
    apply QR_nz in Ec, Nk. field. split; assumption.
Qed.
Print Assumptions C71_enlarge.
(** Refuted: heights are measured from y = 0 and not from the feet, so raising the droplet makes the angle larger. *)
Theorem C71_raised_refuted : forall l r pl pr b x, nth_error l 0 = Some pl -> nth_error r 0 = Some pr -> fst pl < fst pr -> 0 < b ->
  fit_angle_from_segment l r = Ok (Some x) -> exists y, fit_angle_from_segment (shifted 0 b l) (shifted 0 b r) = Ok (Some y) /\ (x < y)%R.
Proof.
  intros l r pl pr b x El Er HX Hb HF. destruct (top_exists l) as (ml & Tl); [intros ->; discriminate|]. destruct (top_exists r) as (mr & Tr); [intros ->; discriminate|].
  rewrite (fit_of l r pl pr ml mr El Er Tl Tr) in HF.
  rewrite (fit_of (shifted 0 b l) (shifted 0 b r) (fst pl + 0, snd pl + b) (fst pr + 0, snd pr + b) (ml + b) (mr + b));
    [|unfold shifted; rewrite nth_error_map, El; reflexivity|unfold shifted; rewrite nth_error_map, Er; reflexivity|apply top_shift; exact Tl|apply top_shift; exact Tr].
  cbn [fst]. rewrite !Qcplus_0_r. unfold segment_angle in *. destruct (qeq_spec (fst pr - fst pl) 0) as [E|E]; [exfalso; apply (Qclt_not_le _ _ HX); qlra'|].
  injection HF as <-. eexists. split; [reflexivity|]. rewrite !QR_div by (intros K; discriminate K). rewrite !QR_add, QR_1, QR_sub. apply QR_lt in HX. apply QR_pos in Hb.
  unfold degrees. assert (0 < / PI)%R as HI by (apply Rinv_0_lt_compat, PI_RGT_0).
  assert (forall u v, (u < v)%R -> (2 * (u * 180 / PI) < 2 * (v * 180 / PI))%R) as M by (intros u v Huv; unfold Rdiv; nra).
  apply M, atan_increasing. unfold Rdiv. apply Rmult_lt_compat_r; [apply Rinv_0_lt_compat; lra|]. lra.
Qed.
Print Assumptions C71_raised_refuted.

(** ** C72: edges of files, series of angles *)
(** The edges hold the first and the last half of the points, in order of height; with an odd number of points the middle one is in neither. *)
Definition by_height (e : list (Qc * Qc)) : Prop := forall i j p q, (i < j)%nat -> nth_error e i = Some p -> nth_error e j = Some q -> snd p <= snd q.
Lemma point_total p q : point_le p q = true \/ point_le q p = true. Proof. apply lexle_total. Qed.
Lemma point_trans p q r : point_le p q = true -> point_le q r = true -> point_le p r = true. Proof. apply lexle_trans. Qed.
Lemma point_antisym p q : point_le p q = true -> point_le q p = true -> p = q.
Proof. intros A B. pose proof (lexle_antisym _ _ A B) as E. injection E as E1 E2. destruct p, q. cbn in *. subst. reflexivity. Qed.
Lemma point_height p q : point_le p q = true -> snd p <= snd q.
Proof. unfold point_le. rewrite lexle_cons. intros [H|[H _]]; [apply qc_lt_le; exact H|rewrite H; apply Qcle_refl]. Qed.
Lemma sorted_height e : sorted point_le e -> by_height e.
Proof.
  induction 1 as [|x l Hx Hl IH]; intros i j p q Hij Hp Hq; [destruct i; discriminate|]. destruct j as [|j]; [lia|]. cbn [nth_error] in Hq.
  destruct i as [|i]; cbn [nth_error] in Hp; [injection Hp as <-; apply point_height, Hx; exact (nth_error_In _ _ Hq)|]. apply (IH i j); [lia|assumption|assumption].
Qed.
Lemma combine_split (pts : list (Qc * Qc)) : combine (map fst pts) (map snd pts) = pts.
Proof. induction pts as [|[x y] pts IH]; cbn; [reflexivity|]. rewrite IH. reflexivity. Qed.
Lemma skip_skip {A} a b (l : list A) : skipn a (skipn b l) = skipn (a + b) l.
Proof. revert l. induction b as [|b IH]; intros l; [rewrite Nat.add_0_r; reflexivity|]. destruct l as [|x l]; [rewrite !skipn_nil; reflexivity|]. rewrite Nat.add_succ_r. cbn [skipn]. apply IH. Qed.
Theorem C72_halves : forall pts l r, split_edges (map fst pts) (map snd pts) = (l, r) ->
  exists a m b, pts = a ++ m ++ b /\ length a = length b /\ (length m <= 1)%nat /\ Permutation.Permutation l a /\ Permutation.Permutation r b /\ by_height l /\ by_height r.
Proof.
  intros pts l r H. unfold split_edges in H. rewrite combine_split, map_length in H. injection H as <- <-. set (n := Nat.div (length pts) 2).
  pose proof (Nat.div_mod (length pts) 2 ltac:(lia)) as D. pose proof (Nat.mod_upper_bound (length pts) 2 ltac:(lia)) as M. fold n in D.
  exists (firstn n pts), (firstn (length pts - n - n) (skipn n pts)), (skipn (length pts - n - n) (skipn n pts)).
  rewrite firstn_skipn, firstn_skipn. split; [reflexivity|].
  rewrite !firstn_length, !skipn_length. split; [lia|]. split; [lia|].
  split; [symmetry; apply isort_perm|]. split; [|split; apply sorted_height, isort_sorted; first [exact point_total|exact point_trans]].
  rewrite skip_skip. rewrite <- isort_perm. rewrite firstn_rev. rewrite <- Permutation.Permutation_rev. replace (length pts - n - n + n)%nat with (length pts - n)%nat by lia. reflexivity.
Qed.
Print Assumptions C72_halves.
(** For the curve of a collected droplet (C33, C34) the edges are exactly its left and right points, from the lowest layer upwards. *)
Definition left_points (h : Qc) (ps : list (Qc * Qc)) : list (Qc * Qc) := map (fun i => (fst (nth i ps (0, 0)), ZQ (Z.of_nat i) * h)) (seq 0 (length ps)).
Definition right_points (h : Qc) (ps : list (Qc * Qc)) : list (Qc * Qc) := map (fun i => (snd (nth i ps (0, 0)), ZQ (Z.of_nat i) * h)) (seq 0 (length ps)).
Lemma layers_sorted h (f : nat -> Qc) : 0 < h -> forall n k, sorted point_le (map (fun i => (f i, ZQ (Z.of_nat i) * h)) (seq k n)).
Proof.
  intros Hh. induction n as [|n IH]; intros k; cbn [seq map]; constructor; [|apply IH].
  intros q Hq. apply in_map_iff in Hq. destruct Hq as (i & <- & Hi). apply in_seq in Hi. unfold point_le. apply lexle_cons. left. cbn [snd].
  apply Qclt_minus_iff. replace (ZQ (Z.of_nat i) * h + - (ZQ (Z.of_nat k) * h)) with ((ZQ (Z.of_nat i) - ZQ (Z.of_nat k)) * h) by ring.
  apply qmult_pos; [|exact Hh]. rewrite <- ZQ_sub, <- ZQ_0. apply ZQ_lt. lia.
Qed.
Theorem C72_collected : forall h ps, 0 < h -> split_edges (map fst (closed_curve h ps)) (map snd (closed_curve h ps)) = (left_points h ps, right_points h ps).
Proof.
  intros h ps Hh. unfold split_edges. rewrite combine_split. unfold closed_curve. fold (left_points h ps) (right_points h ps).
  assert (length (left_points h ps) = length ps) as L1 by (unfold left_points; rewrite map_length, seq_length; reflexivity).
  assert (length (right_points h ps) = length ps) as L2 by (unfold right_points; rewrite map_length, seq_length; reflexivity).
  rewrite map_length, app_length, rev_length, L1, L2. replace (length ps + length ps)%nat with (length ps * 2)%nat by lia. rewrite Nat.div_mul by lia.
  rewrite rev_app_distr, rev_involutive. rewrite <- L1 at 1. rewrite <- L2 at 1. rewrite !firstn_app, !firstn_all, !Nat.sub_diag. cbn [firstn]. rewrite !app_nil_r.
  f_equal; apply isort_id; first [exact point_total|exact point_trans|exact point_antisym|apply layers_sorted; exact Hh].
Qed.
Print Assumptions C72_collected.
(** So also from the file, if the numbers have three decimals. *)
Theorem C72_file : forall header h ps, Forall comment_line header -> 0 < h -> ps <> [] ->
  InterfaceFilesProps.decimals3 h -> (forall p, In p ps -> InterfaceFilesProps.decimals3 (fst p) /\ InterfaceFilesProps.decimals3 (snd p)) ->
  read_interface_file (Some (interface_text header (closed_curve h ps))) = Ok (left_points h ps, right_points h ps).
Proof.
  intros header h ps Hh Hpos Hne [m Hm] HD.
  assert (forall p, In p (closed_curve h ps) -> InterfaceFilesProps.decimals3 (fst p) /\ InterfaceFilesProps.decimals3 (snd p)) as HD'.
  { assert (forall i, InterfaceFilesProps.decimals3 (ZQ (Z.of_nat i) * h)) as DH. { intros i. exists (Z.of_nat i * m)%Z. rewrite Hm, ZQ_mul. unfold Qcdiv. ring. }
    intros p Hp. unfold closed_curve in Hp. apply in_app_iff in Hp. destruct Hp as [Hp|Hp]; [|apply in_rev in Hp]; apply in_map_iff in Hp; destruct Hp as (i & <- & Hi); apply in_seq in Hi; cbn [fst snd];
      (split; [|apply DH]); apply (HD (nth i ps (0, 0))); apply nth_In; lia. }
  destruct (InterfaceFilesProps.C68_read_back header (closed_curve h ps) Hh) as (xs & ys & E & HS).
  { unfold closed_curve. rewrite app_length, rev_length, !map_length, seq_length. destruct ps; [contradiction|]. cbn [length]. lia. }
  destruct (InterfaceFilesProps.stored_exact _ _ _ HD' HS) as [-> ->]. unfold read_interface_file. rewrite E. cbn [rbind]. rewrite C72_collected by exact Hpos. reflexivity.
Qed.
Print Assumptions C72_file.

(** A series of files: every list has the angle of file i at position i; a file which cannot be read ends the run. *)
Lemma step_ok want height c f c' : angle_step want height c f = Ok c' ->
  exists l r, read_interface_file f = Ok (l, r) /\
    (if want then exists a, fit_angle_from_segment l r = Ok a /\ fit c' = fit c ++ [a] else fit c' = fit c) /\
    match height with
    | Some h => exists a b, measure_angle l false h = Ok a /\ measure_angle r true h = Ok b /\ left c' = left c ++ [a] /\ right c' = right c ++ [b] /\ measured c' = measured c ++ [mean2 a b]
    | None => left c' = left c /\ right c' = right c /\ measured c' = measured c
    end.
Proof.
  intros H. unfold angle_step in H. destruct (read_interface_file f) as [[l r]|]; [|discriminate]. cbn [rbind] in H. exists l, r. split; [reflexivity|]. destruct want.
  - destruct (fit_angle_from_segment l r) as [a|]; [|discriminate]. cbn [rbind] in H. destruct height as [h|].
    + destruct (measure_angle l false h) as [x|]; [|discriminate]. cbn [rbind] in H. destruct (measure_angle r true h) as [y|]; [|discriminate]. cbn [rbind] in H. injection H as <-. cbn.
      split; [exists a; auto|exists x, y; auto].
    + injection H as <-. cbn. split; [exists a; auto|auto].
  - cbn [rbind] in H. destruct height as [h|].
    + destruct (measure_angle l false h) as [x|]; [|discriminate]. cbn [rbind] in H. destruct (measure_angle r true h) as [y|]; [|discriminate]. cbn [rbind] in H. injection H as <-. cbn.
      split; [reflexivity|exists x, y; auto].
    + injection H as <-. cbn. auto.
Qed.
(** The mean of two angles is a number if and only if both are. *)
Definition mean_of (a b v : option R) : Prop :=
  match v with Some m => exists x y, a = Some x /\ b = Some y /\ (m + m = x + y)%R | None => a = None \/ b = None end.
Definition series_of (want : bool) (height : option Qc) (files : list (option bytes)) (c : found) : Prop :=
  (want = false -> fit c = []) /\ (height = None -> measured c = [] /\ left c = [] /\ right c = []) /\
  (want = true -> length (fit c) = length files) /\ (height <> None -> length (measured c) = length files /\ length (left c) = length files /\ length (right c) = length files) /\
  forall i f, nth_error files i = Some f -> exists l r, read_interface_file f = Ok (l, r) /\
    (want = true -> exists a, nth_error (fit c) i = Some a /\ fit_angle_from_segment l r = Ok a) /\
    (forall h, height = Some h -> exists a b, measure_angle l false h = Ok a /\ measure_angle r true h = Ok b /\
       nth_error (left c) i = Some a /\ nth_error (right c) i = Some b /\ exists v, nth_error (measured c) i = Some v /\ mean_of a b v).
Lemma mean2_of a b : mean_of a b (mean2 a b).
Proof. unfold mean_of, mean2. destruct a as [a|], b as [b|]; auto. exists a, b. split; [reflexivity|]. split; [reflexivity|]. field. Qed.
Lemma app_nth {A} (l : list A) x i : nth_error (l ++ [x]) i = if Nat.eqb i (length l) then Some x else nth_error l i.
Proof.
  destruct (Nat.eqb_spec i (length l)) as [->|H]; [rewrite nth_error_app2, Nat.sub_diag by lia; reflexivity|].
  destruct (Nat.lt_ge_cases i (length l)); [apply nth_error_app1; assumption|]. rewrite (proj2 (nth_error_None l i)) by assumption. apply nth_error_None. rewrite app_length. cbn. lia.
Qed.
Lemma loop_app want height fs gs : forall c, angle_loop want height c (fs ++ gs) = (do c <- angle_loop want height c fs; angle_loop want height c gs).
Proof. induction fs as [|f fs IH]; intros c; cbn [app angle_loop rbind]; [reflexivity|]. destruct (angle_step want height c f) as [c'|]; cbn [rbind]; [apply IH|reflexivity]. Qed.
Theorem C72_series : forall want height files c, angle_loop want height none_found files = Ok c -> series_of want height files c.
Proof.
  intros want height. induction files as [|f files IH] using rev_ind; intros c H.
  - injection H as <-. unfold series_of. cbn. repeat (split; [auto|]). intros [|i]; discriminate.
  - rewrite loop_app in H. destruct (angle_loop want height none_found files) as [c0|] eqn:E; [|discriminate]. cbn [rbind angle_loop] in H.
    destruct (angle_step want height c0 f) as [c1|] eqn:ES; [|discriminate]. cbn [rbind] in H. injection H as <-.
    destruct (IH c0 eq_refl) as (A1 & A2 & A3 & A4 & A5). destruct (step_ok _ _ _ _ _ ES) as (l & r & ER & SF & SM). unfold series_of. rewrite app_length. cbn [length].
    split; [intros ->; rewrite SF; apply A1; reflexivity|]. split; [intros ->; destruct SM as (-> & -> & ->); apply A2; reflexivity|].
    split; [intros ->; destruct SF as (a & _ & ->); rewrite app_length, A3; reflexivity|].
    split; [intros Hn; destruct height as [h|]; [|contradiction]; destruct SM as (a & b & _ & _ & -> & -> & ->); rewrite !app_length; cbn [length]; destruct (A4 ltac:(discriminate)) as (-> & -> & ->); auto|].
    intros i g Hg. rewrite app_nth in Hg. destruct (Nat.eqb_spec i (length files)) as [->|Hi].
    + injection Hg as <-. exists l, r. split; [exact ER|]. split.
      * intros ->. destruct SF as (a & EA & ->). exists a. rewrite app_nth, A3, Nat.eqb_refl by reflexivity. auto.
      * intros h ->. destruct SM as (a & b & Ea & Eb & -> & -> & ->). destruct (A4 ltac:(discriminate)) as (L1 & L2 & L3). exists a, b. rewrite !app_nth, L1, L2, L3, Nat.eqb_refl. repeat (split; [auto; fail|]). exists (mean2 a b). split; [reflexivity|apply mean2_of].
    + destruct (A5 i g Hg) as (l' & r' & ER' & F' & M'). exists l', r'. split; [exact ER'|]. split.
      * intros ->. destruct SF as (a & EA & ->). destruct (F' eq_refl) as (a' & H1 & H2). exists a'. rewrite app_nth, A3 by reflexivity. destruct (Nat.eqb_spec i (length files)); [contradiction|]. auto.
      * intros h ->. destruct SM as (a & b & Ea & Eb & -> & -> & ->). destruct (A4 ltac:(discriminate)) as (L1 & L2 & L3). destruct (M' h eq_refl) as (a' & b' & H1 & H2 & H3 & H4 & H5).
        exists a', b'. rewrite !app_nth, L1, L2, L3. destruct (Nat.eqb_spec i (length files)); [contradiction|]. auto.
Qed.
Print Assumptions C72_series.
Theorem C72_unreadable : forall want height files f rest e c, angle_loop want height none_found files = Ok c -> read_interface_file f = Err e ->
  angle_loop want height none_found (files ++ f :: rest) = Err e.
Proof. intros want height files f rest e c H HE. rewrite loop_app, H. cbn [rbind angle_loop]. unfold angle_step. rewrite HE. reflexivity. Qed.
Print Assumptions C72_unreadable.
(** Unreadable are files which do not exist and files with less than two points. *)
Theorem C72_missing : read_interface_file None = Err OSErr /\
  forall header pts, Forall comment_line header -> (length pts < 2)%nat -> exists e, read_interface_file (Some (interface_text header pts)) = Err e.
Proof.
  split; [reflexivity|]. intros header pts Hh Hl. unfold read_interface_file. destruct pts as [|p [|q pts]]; [| |cbn [length] in Hl; lia].
  - rewrite InterfaceFilesProps.C68_no_points by exact Hh. eexists. reflexivity.
  - rewrite InterfaceFilesProps.C68_single_point by exact Hh. eexists. reflexivity.
Qed.
Print Assumptions C72_missing.
(** On the disk: the files of the unbroken run are used, and the times are those of the files, from 0 in steps of the given time. *)
Import Utils(disk, fopts, fname, Upto, Inf, o_begin, o_end, o_ext, exists_path).
Theorem C72_run : forall ffuel d base want height dt fo n,
  let begin := match o_begin fo with Some b => b | None => 1%Z end in
  let e := match o_end fo with Some e => e | None => Inf end in
  let ext := match o_ext fo with Some x => x | None => ".xvg"%string end in
  (n < ffuel)%nat -> FilesSpec.run_length (fun z => match e with Upto m => (z <= m)%Z | Inf => True end /\ exists_path d (Formats.os_path (fname base z ext)) = true) begin n ->
  let files := map (fun k => Average.content d (fname base k ext)) (FilesSpec.numbers begin n) in
  (forall err, angle_loop want height none_found files = Err err -> interface_contact_angle ffuel d base want height dt fo = Err err) /\
  (forall c, angle_loop want height none_found files = Ok c -> exists times, interface_contact_angle ffuel d base want height dt fo = Ok (times, c) /\
     (want = true \/ height <> None -> length times = n /\ forall i, (i < n)%nat -> nth_error times i = Some (NQ i * dt)) /\
     (want = false -> height = None -> times = [])).
Proof.
  intros ffuel d base want height dt fo n begin e ext Hf Hr files.
  assert (length files = n) as LF by (unfold files; rewrite map_length; apply UtilsFiles.numbers_length).
  unfold interface_contact_angle. change (Utils.dflt 1%Z (o_begin fo)) with begin. change (Utils.dflt Inf (o_end fo)) with e. change (Utils.dflt ".xvg"%string (o_ext fo)) with ext.
  unfold Utils.find_datamap_singles. rewrite (UtilsFiles.yield_singles_run _ _ _ _ n); [|exact Hr|exact Hf]. cbn [rbind]. rewrite map_map. fold files. split.
  - intros err H. rewrite H. reflexivity.
  - intros c H. rewrite H. cbn [rbind]. eexists. split; [reflexivity|]. destruct (C72_series _ _ _ _ H) as (A1 & A2 & A3 & A4 & _). rewrite LF in A3, A4.
    assert (forall m, m = n -> forall i, (i < n)%nat -> nth_error (map (fun i => NQ i * dt) (seq 0 m)) i = Some (NQ i * dt)) as N.
    { intros m -> i Hi. rewrite nth_error_map. rewrite (nth_error_nth' _ 0%nat) by (rewrite seq_length; exact Hi). rewrite seq_nth by exact Hi. reflexivity. }
    unfold times_of. split.
    + intros HW. destruct height as [h|].
      * destruct (A4 ltac:(discriminate)) as (L & _). rewrite map_length, seq_length. split; [exact L|]. apply N. exact L.
      * destruct want; [|destruct HW; [discriminate|contradiction]]. rewrite map_length, seq_length. split; [apply A3; reflexivity|]. apply N. apply A3. reflexivity.
    + intros -> ->. reflexivity.
Qed.
Print Assumptions C72_run.
(** The columns which are written: times, then mean, left and right angles, then the fitted ones, as the legend says; all of the same length. *)
Theorem C72_columns : forall want height files c dt, angle_loop want height none_found files = Ok c -> files <> [] -> want = true \/ height <> None ->
  table_columns (times_of want height dt c) c =
    map (fun i => Some (QR (NQ i * dt))) (seq 0 (length files)) :: (match height with Some _ => [measured c; left c; right c] | None => [] end) ++ (if want then [fit c] else []) /\
  table_legend c = ("# t (ps)" ++ (match height with Some _ => " Mean (deg.) Left (deg.) Right (deg.)" | None => "" end) ++ (if want then " Fit (deg.)" else ""))%string /\
  Forall (fun col => length col = length files) (table_columns (times_of want height dt c) c).
Proof.
  intros want height files c dt H Hne HW. destruct (C72_series _ _ _ _ H) as (A1 & A2 & A3 & A4 & _).
  assert (times_of want height dt c = map (fun i => NQ i * dt) (seq 0 (length files))) as ET.
  { unfold times_of. destruct height as [h|]; [destruct (A4 ltac:(discriminate)) as (-> & _); reflexivity|]. destruct want; [rewrite A3; reflexivity|destruct HW; [discriminate|contradiction]]. }
  rewrite ET. assert (forall l : list (option R), length l = length files -> l <> []) as NE by (intros l HL ->; destruct files; [contradiction|discriminate]).
  assert (table_columns (map (fun i => NQ i * dt) (seq 0 (length files))) c =
    map (fun i => Some (QR (NQ i * dt))) (seq 0 (length files)) :: (match height with Some _ => [measured c; left c; right c] | None => [] end) ++ (if want then [fit c] else [])) as EC.
  { unfold table_columns. rewrite map_map. f_equal. f_equal.
    - destruct height as [h|]; [destruct (A4 ltac:(discriminate)) as (L & _); apply NE in L; destruct (measured c); [contradiction|reflexivity]|destruct (A2 eq_refl) as (-> & _); reflexivity].
    - destruct want; [pose proof (A3 eq_refl) as L; apply NE in L; destruct (fit c); [contradiction|reflexivity]|rewrite (A1 eq_refl); reflexivity]. }
  split; [exact EC|]. split.
  - unfold table_legend. f_equal. f_equal.
    + destruct height as [h|]; [destruct (A4 ltac:(discriminate)) as (L & _); apply NE in L; destruct (measured c); [contradiction|reflexivity]|destruct (A2 eq_refl) as (-> & _); reflexivity].
    + destruct want; [pose proof (A3 eq_refl) as L; apply NE in L; destruct (fit c); [contradiction|reflexivity]|rewrite (A1 eq_refl); reflexivity].
  - rewrite EC. constructor; [rewrite map_length, seq_length; reflexivity|]. apply Forall_app. split.
    + destruct height as [h|]; [|constructor]. destruct (A4 ltac:(discriminate)) as (L1 & L2 & L3). repeat (constructor; [assumption|]). constructor.
    + destruct want; [constructor; [apply A3; reflexivity|constructor]|constructor].
Qed.
Print Assumptions C72_columns.

(** ** A concrete droplet: radius 5, centre 3 above the base, contact angle acos (-3/5). *)
Definition zp (l : list (Z * Z)) : list (Qc * Qc) := map (fun p => (ZQ (fst p), ZQ (snd p))) l.
Definition drop_left : list (Qc * Qc) := zp [(-4, 0); (-5, 3); (-4, 6); (-3, 7); (0, 8)]%Z.
Definition drop_right : list (Qc * Qc) := zp [(4, 0); (5, 3); (4, 6); (3, 7); (0, 8)]%Z.
Lemma QR_ZQ' z : QR (ZQ z) = IZR z.
Proof. unfold QR. rewrite this_ZQ. unfold Q2R, inject_Z. cbn [QArith_base.Qnum QArith_base.Qden]. rewrite Rinv_1. ring. Qed.
Definition drop_angle : R := acos (-3 / 5).
Lemma drop_angle_spec : (PI / 2 < drop_angle < PI /\ cos drop_angle = -3 / 5 /\ sin drop_angle = 4 / 5)%R.
Proof.
  pose proof PI_RGT_0 as HP. assert (-1 <= -3 / 5 <= 1)%R as HB by lra. assert (cos drop_angle = -3 / 5)%R as HC by (apply cos_acos; exact HB).
  pose proof (acos_bound (-3 / 5)) as [B1 B2]. fold drop_angle in B1, B2. assert (drop_angle <> PI)%R as N1. { intros E. rewrite E, cos_PI in HC. lra. }
  assert (PI / 2 < drop_angle)%R. { apply Rnot_le_lt. intros N. assert (0 <= cos drop_angle)%R by (apply cos_ge_0; lra). lra. }
  split; [lra|]. split; [exact HC|]. unfold drop_angle. rewrite sin_acos by exact HB. replace (1 - Rsqr (-3 / 5))%R with (4 / 5 * (4 / 5))%R by (unfold Rsqr; field). apply sqrt_square. lra.
Qed.
Example C71_ex : fit_angle_from_segment drop_left drop_right = Ok (Some (degrees drop_angle)).
Proof.
  destruct drop_angle_spec as (B & HC & HS). pose proof PI_RGT_0 as HP.
  apply (C71_circle drop_left drop_right (ZQ (-4), ZQ 0) (ZQ 4, ZQ 0) (ZQ 8) (ZQ 8) 5 drop_angle); [reflexivity|reflexivity| | |lra|lra| | |].
  1,2: split; [eexists; split; [do 4 right; left; reflexivity|reflexivity]|]; intros p Hp; repeat (destruct Hp as [<- | Hp]; [apply qle_true; vm_compute; reflexivity|]); destruct Hp.
  - cbn [fst]. rewrite !QR_ZQ', HS. field.
  - rewrite QR_ZQ', HC. field.
  - rewrite QR_ZQ', HC. field.
Qed.
Lemma drop_lowest : lowest_first drop_left.
Proof. exists (ZQ (-4), ZQ 0). split; [reflexivity|]. intros p Hp. repeat (destruct Hp as [<- | Hp]; [apply qle_true; vm_compute; reflexivity|]). destruct Hp. Qed.
(** At height 2 the point (-5, 3) is used: the angle is halfway between the contact angle and 90 degrees. *)
Example C70_ex : chosen drop_left (ZQ 2) 1 (ZQ (-4), ZQ 0) (ZQ (-5), ZQ 3) /\ on_droplet 5 drop_angle (-4) 0 (ZQ (-4), ZQ 0) /\
  on_droplet 5 drop_angle (-4) (drop_angle - PI / 2) (ZQ (-5), ZQ 3) /\ measure_angle drop_left false (ZQ 2) = Ok (Some (degrees (drop_angle / 2 + PI / 4))).
Proof.
  destruct drop_angle_spec as (B & HC & HS). pose proof PI_RGT_0 as HP.
  assert (chosen drop_left (ZQ 2) 1 (ZQ (-4), ZQ 0) (ZQ (-5), ZQ 3)) as C.
  { split; [reflexivity|]. split; [reflexivity|]. split.
    - intros p Hp. repeat (destruct Hp as [<- | Hp]; [apply qle_true; vm_compute; reflexivity|]). destruct Hp.
    - intros [|j] q Hj Hq; [|lia]. injection Hq as <-. apply qlt_true. vm_compute. reflexivity. }
  assert (on_droplet 5 drop_angle (-4) 0 (ZQ (-4), ZQ 0)) as O0. { split; cbn [fst snd]; rewrite QR_ZQ', Rminus_0_r; ring. }
  assert (on_droplet 5 drop_angle (-4) (drop_angle - PI / 2) (ZQ (-5), ZQ 3)) as O1.
  { split; cbn [fst snd]; rewrite QR_ZQ'; replace (drop_angle - (drop_angle - PI / 2))%R with (PI / 2)%R by ring; rewrite ?sin_PI2, ?cos_PI2, ?HS, ?HC; field. }
  split; [exact C|]. split; [exact O0|]. split; [exact O1|].
  destruct (C70_secant _ _ _ _ _ drop_lowest C) as [HA _]. destruct HA as (a & b & E & _); [intros K; discriminate K|]. rewrite E.
  rewrite (C70_circle _ _ _ _ _ 5 drop_angle (-4) (drop_angle - PI / 2) a drop_lowest C) by (try assumption; lra). do 3 apply f_equal. field.
Qed.
(** The run on the files of C69: both angles of both frames. *)
Example C72_ex : exists c, angle_loop true (Some 1) none_found
    [Some (interface_text (InterfaceFilesProps.ex_hdr "a_00001.xvg") (closed_curve 1 (zp [(2, 4); (3, 4)]%Z)));
     Some (interface_text (InterfaceFilesProps.ex_hdr "a_00002.xvg") (closed_curve 1 (zp [(4, 6); (4, 5)]%Z)))] = Ok c /\ length (fit c) = 2%nat.
Proof. eexists. split; [vm_compute; reflexivity|reflexivity]. Qed.
