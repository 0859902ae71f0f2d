(** Sampling: gradients on grids, averages, regression. *)
From Coq Require Import Permutation String.
From Verif.Base Require Import QcX Res Np ListX Sort Sums.
From Verif.Model Require Import Bins Flow Sample.
From Verif.Spec Require Import FieldSpec FlowSpec.
From Verif.Proofs Require Import FlowP.
Local Open Scope list_scope.

(** ** Sorting a grid *)
Lemma pos_le_total x y : pos_le x y = true \/ pos_le y x = true. Proof. apply lexle_total. Qed.
Lemma pos_le_trans x y z : pos_le x y = true -> pos_le y z = true -> pos_le x z = true. Proof. apply lexle_trans. Qed.
Lemma pos_le_antisym x y : pos_le x y = true -> pos_le y x = true -> x = y.
Proof.
  intros H1 H2. pose proof (lexle_antisym _ _ H1 H2) as E. unfold pos_key in E. destruct x, y; cbn in E. injection E as E1 E2 E3 E4 E5 E6 E7. subst. reflexivity.
Qed.
Lemma pos_lt x y : bY x < bY y \/ (bY x = bY y /\ bX x < bX y) -> pos_le x y = true.
Proof. intros H. unfold pos_le, pos_key. rewrite !lexle_cons. destruct H as [H|[-> H]]; auto. Qed.

Definition point (data : list bin) (x y : Qc) : bin :=
  match find (fun b => (qeq (bX b) x && qeq (bY b) y)%bool) data with Some b => b | None => bin0 end.
Lemma point_spec data x y : (exists b, In b data /\ bX b = x /\ bY b = y) -> In (point data x y) data /\ bX (point data x y) = x /\ bY (point data x y) = y.
Proof.
  intros (b & Hb & Hx & Hy). unfold point. destruct (find _ data) as [c|] eqn:E.
  - apply find_some in E as [Hc E]. apply Bool.andb_true_iff in E as [E1 E2]. apply qeq_true in E1, E2. auto.
  - exfalso. pose proof (find_none _ _ E b Hb) as H. cbn in H. rewrite Hx, Hy, !qeq_refl in H. discriminate.
Qed.
Section Grid.
Context (data : list bin) (x0 y0 dx dy : Qc) (nx ny : nat).
Hypothesis HG : bins_on_grid data x0 y0 dx dy nx ny.
Definition pt (j i : nat) : bin := point data (x0 + NQ i * dx) (y0 + NQ j * dy).
Lemma pt_spec i j : (i < nx)%nat -> (j < ny)%nat -> In (pt j i) data /\ bX (pt j i) = x0 + NQ i * dx /\ bY (pt j i) = y0 + NQ j * dy.
Proof. intros Hi Hj. destruct HG as (_ & _ & _ & H). apply point_spec. apply H; assumption. Qed.
Lemma NQ_lt i j : (i < j)%nat -> NQ i < NQ j.
Proof. intros H. unfold NQ. apply ZQ_lt. lia. Qed.
Lemma coord_lt x d i j : 0 < d -> (i < j)%nat -> x + NQ i * d < x + NQ j * d.
Proof. intros Hd Hij. apply NQ_lt in Hij. assert (0 < (NQ j - NQ i) * d) as H by (apply qmult_pos; [qlra'|exact Hd]). replace (x + NQ j * d) with (x + NQ i * d + (NQ j - NQ i) * d) by ring. qlra'. Qed.
Lemma grid_sorted : sorted pos_le (grid ny nx pt).
Proof.
  assert (forall a n, (a + n <= ny)%nat -> sorted pos_le (flat_map (fun j => map (pt j) (seq 0 nx)) (seq a n))) as GS.
  { intros a n. revert a. induction n as [|n IH]; intros a Ha; [constructor|]. cbn [seq flat_map].
    assert (forall b m, (b + m <= nx)%nat -> forall rest, sorted pos_le rest -> (forall c, In c rest -> exists j i, (a < j < ny)%nat /\ (i < nx)%nat /\ c = pt j i) -> sorted pos_le (map (pt a) (seq b m) ++ rest)) as GR.
    { intros b m. revert b. induction m as [|m IHm]; intros b Hb rest HS HR; [exact HS|]. cbn [seq map app]. constructor.
      - intros c Hc. apply in_app_or in Hc as [Hc|Hc].
        + apply in_map_iff in Hc as (k & <- & Hk). apply in_seq in Hk. apply pos_lt. right.
          destruct (pt_spec b a) as (_ & X1 & Y1); [lia|lia|]. destruct (pt_spec k a) as (_ & X2 & Y2); [lia|lia|]. rewrite X1, Y1, X2, Y2. split; [reflexivity|].
          apply coord_lt; [apply HG|lia].
        + apply HR in Hc as (j & i & Hj & Hi & ->). apply pos_lt. left.
          destruct (pt_spec b a) as (_ & X1 & Y1); [lia|lia|]. destruct (pt_spec i j) as (_ & X2 & Y2); [lia|lia|]. rewrite Y1, Y2. apply coord_lt; [apply HG|lia].
      - apply IHm; [lia|exact HS|exact HR]. }
    apply GR; [lia|apply IH; lia|]. intros c Hc. apply in_flat_map in Hc as (j & Hj & Hc). apply in_seq in Hj. apply in_map_iff in Hc as (i & <- & Hi). apply in_seq in Hi.
    exists j, i. split; [lia|]. split; [lia|reflexivity]. }
  apply (GS 0%nat ny). lia.
Qed.
Lemma grid_points i j i' j' : (i < nx)%nat -> (j < ny)%nat -> (i' < nx)%nat -> (j' < ny)%nat -> pt j i = pt j' i' -> i = i' /\ j = j'.
Proof.
  intros Hi Hj Hi' Hj' E. destruct (pt_spec i j Hi Hj) as (_ & X1 & Y1). destruct (pt_spec i' j' Hi' Hj') as (_ & X2 & Y2). rewrite E in X1, Y1.
  destruct HG as (Hdx & Hdy & _). split.
  - destruct (Nat.lt_trichotomy i i') as [H|[H|H]]; [|exact H|]; exfalso; apply (coord_lt x0 dx _ _ Hdx) in H; rewrite <- X1, <- X2 in H; qlra.
  - destruct (Nat.lt_trichotomy j j') as [H|[H|H]]; [|exact H|]; exfalso; apply (coord_lt y0 dy _ _ Hdy) in H; rewrite <- Y1, <- Y2 in H; qlra.
Qed.
Lemma grid_nodup : NoDup (grid ny nx pt).
Proof.
  apply NoDup_nth_error. intros a b Ha E. rewrite grid_length in Ha.
  destruct (Nat.eq_dec nx 0) as [->|Hnx]; [lia|].
  assert (b < ny * nx)%nat as Hb. { rewrite <- (grid_length ny nx pt). apply nth_error_Some. rewrite <- E. apply nth_error_Some. rewrite grid_length. exact Ha. }
  pose proof (Nat.div_mod a nx Hnx) as Da. pose proof (Nat.div_mod b nx Hnx) as Db.
  pose proof (Nat.mod_upper_bound a nx Hnx) as Ma. pose proof (Nat.mod_upper_bound b nx Hnx) as Mb.
  assert (a / nx < ny)%nat as La by (apply Nat.div_lt_upper_bound; lia). assert (b / nx < ny)%nat as Lb by (apply Nat.div_lt_upper_bound; lia).
  rewrite Da, Db in E. replace (nx * (a / nx) + a mod nx)%nat with (a / nx * nx + a mod nx)%nat in E by lia. replace (nx * (b / nx) + b mod nx)%nat with (b / nx * nx + b mod nx)%nat in E by lia.
  rewrite !grid_nth_error in E by assumption. injection E as E. apply grid_points in E as [E1 E2]; try assumption. rewrite Da, Db, E1, E2. reflexivity.
Qed.
Lemma sort_grid : sort_bins data = grid ny nx pt.
Proof.
  assert (Permutation (grid ny nx pt) data) as HP.
  { apply NoDup_Permutation_bis; [apply grid_nodup| |].
    - destruct HG as (_ & _ & HL & _). rewrite grid_length, HL. apply Nat.le_refl.
    - intros b Hb. apply in_grid in Hb as (j & i & Hj & Hi & ->). apply pt_spec; assumption. }
  unfold sort_bins. rewrite <- (isort_canonical pos_le pos_le_total pos_le_trans pos_le_antisym _ _ HP).
  apply isort_id; [apply pos_le_total|apply pos_le_trans|apply pos_le_antisym|apply grid_sorted].
Qed.
End Grid.

(** ** Gradients *)
Lemma gradient2_exact a b c x h n k f : h <> 0 -> (3 <= n)%nat -> (k < n)%nat ->
  (forall m, (m < n)%nat -> f m = a + b * (x + NQ m * h) + c * (x + NQ m * h) * (x + NQ m * h)) ->
  gradient2 f n h k = b + (1 + 1) * c * (x + NQ k * h).
Proof.
  intros Hh Hn Hk HF. unfold gradient2.
  replace (Q2Qc (- 3 # 2)) with (- (1 + 1 + 1) / (1 + 1)) by (apply Qc_is_canon; reflexivity).
  replace (Q2Qc (3 # 2)) with ((1 + 1 + 1) / (1 + 1)) by (apply Qc_is_canon; reflexivity).
  replace (Q2Qc (1 # 2)) with (1 / (1 + 1)) by (apply Qc_is_canon; reflexivity).
  replace (Q2Qc 2) with (1 + 1) by (apply Qc_is_canon; reflexivity).
  assert (1 + 1 <> 0) as H2 by discriminate.
  destruct (Nat.eqb_spec k 0) as [->|Hk0].
  - rewrite !HF by lia. rewrite !NQ_S, NQ_0. field. auto.
  - destruct (Nat.eqb_spec k (n - 1)) as [->|Hk1].
    + destruct n as [|[|[|m]]]; try lia. replace (S (S (S m)) - 3)%nat with m by lia. replace (S (S (S m)) - 2)%nat with (S m) by lia. replace (S (S (S m)) - 1)%nat with (S (S m)) by lia.
      rewrite !HF by lia. rewrite !NQ_S. field. auto.
    + destruct k as [|k]; [congruence|]. replace (S k + 1)%nat with (S (S k)) by lia. replace (S k - 1)%nat with k by lia. rewrite !HF by lia. rewrite !NQ_S. field. auto.
Qed.
Lemma gradient2_scale f n h k c : gradient2 (fun m => c * f m) n h k = c * gradient2 f n h k.
Proof.
  unfold gradient2. destruct (Nat.eqb k 0); [|destruct (Nat.eqb k (n - 1))]; unfold Qcdiv; ring.
Qed.
Lemma gradient2_ext f g n h k : (3 <= n)%nat -> (k < n)%nat -> (forall m, (m < n)%nat -> f m = g m) -> gradient2 f n h k = gradient2 g n h k.
Proof.
  intros Hn Hk H. unfold gradient2. destruct (Nat.eqb_spec k 0); [|destruct (Nat.eqb_spec k (n - 1))]; rewrite !H by lia; reflexivity.
Qed.
Lemma dissipation_viscous mu ux uy vx vy : dissipation mu ux uy vx vy = viscous mu ux uy vx vy.
Proof.
  unfold dissipation, viscous. replace (Q2Qc 2) with (1 + 1) by (apply Qc_is_canon; reflexivity). replace (Q2Qc 3) with (1 + 1 + 1) by (apply Qc_is_canon; reflexivity).
  field. discriminate.
Qed.
Lemma viscous_nonneg mu ux uy vx vy : 0 <= mu -> 0 <= viscous mu ux uy vx vy.
Proof.
  intros H. unfold viscous. apply qmult_nonneg; [exact H|].
  replace ((1 + 1) * (ux * ux + vy * vy) - (1 + 1) / (1 + 1 + 1) * ((ux + vy) * (ux + vy)) + (vx + uy) * (vx + uy))
    with ((1 + 1) / (1 + 1 + 1) * ((ux * ux + vy * vy) + (ux - vy) * (ux - vy)) + (vx + uy) * (vx + uy)) by (field; discriminate).
  assert (forall x : Qc, 0 <= x * x) as SQ by (intros; qc2q; nra).
  pose proof (SQ ux). pose proof (SQ vy). pose proof (SQ (ux - vy)). pose proof (SQ (vx + uy)).
  assert (0 <= (1 + 1) / (1 + 1 + 1) * ((ux * ux + vy * vy) + (ux - vy) * (ux - vy))) by (apply qmult_nonneg; [discriminate|qlra']). qlra'.
Qed.

(** ** Averages *)
Lemma qsum_bounds l lo hi : (forall x, In x l -> lo <= x /\ x <= hi) -> lo * NQ (List.length l) <= qsum l /\ qsum l <= hi * NQ (List.length l).
Proof.
  induction l as [|x l IH]; intros H.
  - simpl. replace (lo * NQ 0) with 0 by (rewrite NQ_0; ring). replace (hi * NQ 0) with 0 by (rewrite NQ_0; ring). split; apply Qcle_refl.
  - destruct IH as [I1 I2]; [intros; apply H; right; assumption|]. destruct (H x (or_introl eq_refl)) as [H1 H2]. cbn [length]. rewrite qsum_cons, NQ_S.
    replace (lo * (NQ (List.length l) + 1)) with (lo * NQ (List.length l) + lo) by ring. replace (hi * (NQ (List.length l) + 1)) with (hi * NQ (List.length l) + hi) by ring.
    revert I1 I2. generalize (lo * NQ (List.length l)) (hi * NQ (List.length l)) (qsum l). intros A B C I1 I2. split; qlra'.
Qed.
Lemma NQ_pos n : n <> 0%nat -> 0 < NQ n.
Proof. intros H. unfold NQ. change 0 with (ZQ 0). apply ZQ_lt. lia. Qed.
Lemma qmean_bounds l lo hi : l <> [] -> (forall x, In x l -> lo <= x /\ x <= hi) -> lo <= qmean l /\ qmean l <= hi.
Proof.
  intros Hne H. destruct (qsum_bounds l lo hi H) as [H1 H2]. assert (0 < NQ (List.length l)) as HP by (apply NQ_pos; destruct l; [congruence|discriminate]).
  unfold qmean. split; [apply qle_div_iff; assumption|apply qdiv_le_iff; assumption].
Qed.
Lemma qmean_const l v : l <> [] -> (forall x, In x l -> x = v) -> qmean l = v.
Proof. intros Hne H. apply Qcle_antisym; eapply qmean_bounds; try exact Hne; intros x Hx; rewrite (H x Hx); split; apply Qcle_refl. Qed.
Lemma pick_map {A} (f : bin -> A) sel data : pick sel data (map f data) = map f (filter sel data).
Proof.
  unfold pick. induction data as [|b data IH]; simpl; [reflexivity|]. destruct (sel b); simpl; [f_equal|]; exact IH.
Qed.

(** ** Regression *)
Lemma qsum_sq_zero l : qsum (map (fun u => u * u) l) = 0 -> forall u, In u l -> u = 0.
Proof.
  assert (forall x : Qc, 0 <= x * x) as SQ by (intros; qc2q; nra).
  induction l as [|a l IH]; intros H u Hu; [destruct Hu|]. cbn [map qsum] in H. change (qsum (a * a :: map (fun u => u * u) l)) with (a * a + qsum (map (fun u => u * u) l)) in H.
  assert (0 <= qsum (map (fun u => u * u) l)) as HN. { clear - SQ. induction l as [|b l IH]; [apply Qcle_refl|]. cbn [map]. change (qsum (b * b :: map (fun u => u * u) l)) with (b * b + qsum (map (fun u => u * u) l)). pose proof (SQ b). qlra'. }
  pose proof (SQ a) as HA. destruct Hu as [<- | Hu].
  - assert (a * a = 0) as E by (apply Qcle_antisym; [|exact HA]; qlra'). apply Qcmult_integral in E. tauto.
  - apply IH; [|exact Hu]. apply Qcle_antisym; [|exact HN]. qlra'.
Qed.
Lemma combine_map_both {A B C} (f : A -> B) (g : A -> C) l : combine (map f l) (map g l) = map (fun a => (f a, g a)) l.
Proof. induction l; simpl; congruence. Qed.
Lemma intercept_linear us ys s z : s <> 0 -> (forall u y, In (u, y) (combine us ys) -> u = s * (y - z)) -> List.length us = List.length ys ->
  (exists u u', In u us /\ In u' us /\ u <> u') -> intercept us ys = Ok z.
Proof.
  intros Hs HL Hlen (u & u' & Hu & Hu' & N).
  assert (ys = map (fun u => u / s + z) us) as ->.
  { clear - HL Hlen Hs. revert ys HL Hlen. induction us as [|u us IH]; intros [|y ys] HL Hlen; try discriminate; [reflexivity|]. simpl. f_equal.
    - rewrite (HL u y (or_introl eq_refl)). field. exact Hs.
    - apply IH; [intros; apply HL; right; assumption|]. simpl in Hlen. lia. }
  clear HL Hlen. unfold intercept. set (um := qmean us).
  assert (us <> []) as Hne by (intros ->; destruct Hu). assert (NQ (List.length us) <> 0) as HN by (apply NQ_nz; destruct us; [congruence|discriminate]).
  assert (qmean (map (fun u => u / s + z) us) = um / s + z) as ->.
  { unfold um, qmean. rewrite map_length.
    assert (forall l, qsum (map (fun u => u / s + z) l) = qsum l / s + z * NQ (List.length l)) as ->.
    { induction l as [|a l IH]; [cbn; rewrite NQ_0; unfold Qcdiv; ring|]. cbn [map length]. change (qsum (a / s + z :: map (fun u => u / s + z) l)) with (a / s + z + qsum (map (fun u => u / s + z) l)).
      change (qsum (a :: l)) with (a + qsum l). rewrite IH, NQ_S. field. exact Hs. }
    field. auto. }
  rewrite <- (map_id us) at 2. rewrite combine_map_both, map_map. cbn [fst snd].
  assert (qsum (map (fun x => (x - um) * (x / s + z - (um / s + z))) us) = qsum (map (fun u => (u - um) * (u - um)) us) / s) as ->.
  { generalize us. intros l. induction l as [|a l IH]; [cbn; unfold Qcdiv; ring|]. cbn [map].
    change (qsum ((a - um) * (a / s + z - (um / s + z)) :: map (fun x => (x - um) * (x / s + z - (um / s + z))) l)) with ((a - um) * (a / s + z - (um / s + z)) + qsum (map (fun x => (x - um) * (x / s + z - (um / s + z))) l)).
    change (qsum ((a - um) * (a - um) :: map (fun u => (u - um) * (u - um)) l)) with ((a - um) * (a - um) + qsum (map (fun u => (u - um) * (u - um)) l)). rewrite IH. field. exact Hs. }
  destruct (qeq_spec (qsum (map (fun u => (u - um) * (u - um)) us)) 0) as [E|E].
  - exfalso. rewrite <- (map_map (fun u => u - um) (fun d => d * d)) in E. pose proof (qsum_sq_zero _ E) as HZ. apply N.
    assert (u - um = 0) as E1 by (apply HZ; apply in_map_iff; eauto). assert (u' - um = 0) as E2 by (apply HZ; apply in_map_iff; eauto). qlra'.
  - f_equal. field. auto.
Qed.
Lemma qsum_map_scale {A} (f : A -> Qc) c l : qsum (map (fun a => c * f a) l) = c * qsum (map f l).
Proof. induction l as [|a l IH]; [cbn; ring|]. cbn [map]. change (c * f a + qsum (map (fun a => c * f a) l) = c * (f a + qsum (map f l))). rewrite IH. ring. Qed.
Lemma qmean_scale c us : qmean (map (fun u => c * u) us) = c * qmean us.
Proof. unfold qmean. rewrite map_length. rewrite (qsum_map_scale (fun u => u)). rewrite map_id. unfold Qcdiv. ring. Qed.
Lemma intercept_scale c us ys : c <> 0 -> List.length us = List.length ys -> intercept (map (fun u => c * u) us) ys = intercept us ys.
Proof.
  intros Hc HL. unfold intercept. rewrite qmean_scale, map_map. set (um := qmean us). set (ym := qmean ys).
  replace (qsum (map (fun x => (c * x - c * um) * (c * x - c * um)) us)) with (c * c * qsum (map (fun u => (u - um) * (u - um)) us)).
  2:{ rewrite <- qsum_map_scale. f_equal. apply map_ext. intros; ring. }
  replace (qsum (map (fun p => (fst p - c * um) * (snd p - ym)) (combine (map (fun u => c * u) us) ys))) with (c * qsum (map (fun p => (fst p - um) * (snd p - ym)) (combine us ys))).
  2:{ rewrite <- qsum_map_scale. f_equal. clearbody um ym. clear - HL. revert ys HL. induction us as [|u us IH]; intros [|y ys] HL; try discriminate; [reflexivity|]. simpl. f_equal; [ring|]. apply IH. simpl in HL. lia. }
  set (A := qsum _). set (B := qsum _).
  destruct (qeq_spec A 0) as [E|E].
  - rewrite E. replace (c * c * 0) with 0 by ring. rewrite qeq_refl. reflexivity.
  - destruct (qeq_spec (c * c * A) 0) as [E'|E'].
    + exfalso. apply Qcmult_integral in E' as [E'|E']; [apply Qcmult_integral in E'; tauto|contradiction].
    + f_equal. field. split; [exact E|exact Hc].
Qed.
Lemma intercept_shift d us ys : us <> [] -> List.length us = List.length ys -> intercept us (map (fun y => y + d) ys) = rmap (fun b => b + d) (intercept us ys).
Proof.
  intros Hne HL. unfold intercept. set (um := qmean us).
  assert (NQ (List.length ys) <> 0) as HN by (apply NQ_nz; rewrite <- HL; destruct us; [congruence|discriminate]).
  assert (qmean (map (fun y => y + d) ys) = qmean ys + d) as ->.
  { unfold qmean. rewrite map_length. assert (forall l, qsum (map (fun y => y + d) l) = qsum l + d * NQ (List.length l)) as ->.
    { induction l as [|a l IH]; [cbn; rewrite NQ_0; ring|]. cbn [map length]. rewrite !qsum_cons, IH, NQ_S. ring. }
    field. exact HN. }
  set (ym := qmean ys).
  assert (qsum (map (fun p => (fst p - um) * (snd p - (ym + d))) (combine us (map (fun y => y + d) ys))) = qsum (map (fun p => (fst p - um) * (snd p - ym)) (combine us ys))) as ->.
  { f_equal. clearbody um ym. clear - HL. revert ys HL. induction us as [|u us IH]; intros [|y ys] HL; try discriminate; [reflexivity|]. simpl. f_equal; [ring|]. apply IH. simpl in HL. lia. }
  destruct (qeq _ 0); [reflexivity|]. cbn [rmap rbind]. match goal with |- Ok ?a = Ok ?b => replace a with b by ring end. reflexivity.
Qed.

(** ** Limits *)
Lemma bin_of_row b : bin_of (row_of b) = b. Proof. destruct b; reflexivity. Qed.
Lemma filter_map_comm {A B} (f : A -> B) p l : filter p (map f l) = map f (filter (fun a => p (f a)) l).
Proof. induction l as [|a l IH]; simpl; [reflexivity|]. destruct (p (f a)); simpl; rewrite IH; reflexivity. Qed.
Lemma limited_filter xlim ylim data fi ox oy nx ny dx dy :
  f_origin fi = Some (ox, oy) -> f_shape fi = Some (nx, ny) -> f_spacing fi = Some (dx, dy) -> (no_limit xlim && no_limit ylim)%bool = false ->
  exists d i, limited xlim ylim data fi = Ok (d, i) /\
    d = filter (fun b => within (Some (default (fst xlim) ox)) (Some (default (snd xlim) (ox + ZQ nx * dx))) (bX b) &&
                         within (Some (default (fst ylim) oy)) (Some (default (snd ylim) (oy + ZQ ny * dy))) (bY b))%bool data /\
    f_spacing i = Some (dx, dy) /\ f_shape i = Some (Z.of_nat (List.length (unique (map bX d))), Z.of_nat (List.length (unique (map bY d)))).
Proof.
  intros HO HS HD HN. unfold limited. rewrite HN. unfold cut, flow_of. cbn [info]. rewrite HO, HS, HD. unfold lims. cbn [Flow.data labels rows info].
  unfold get_data. assert (index_of "X"%string fields = Some 0%nat) as IX by reflexivity. assert (index_of "Y"%string fields = Some 1%nat) as IY by reflexivity.
  repeat first [rewrite IX | rewrite IY | progress cbn [rbind Flow.data rows labels info f_spacing f_shape]].
  rewrite !filter_map_comm, !map_map.
  set (d := filter _ (filter _ data)). eexists _, _. split; [reflexivity|]. rewrite (map_ext (fun x => bin_of (row_of x)) (fun x => x) bin_of_row), map_id.
  split; [|split; [reflexivity|reflexivity]].
  unfold d. clear. induction data as [|b data IH]; [reflexivity|]. simpl. unfold col. cbn [nth row_of].
  destruct (within _ _ (bX b)); simpl; [|exact IH]. destruct (within _ _ (bY b)); simpl; [f_equal|]; exact IH.
Qed.
Lemma selects_eq {A} (P : A -> Prop) p l m : (forall x, In x l -> (p x = true <-> P x)) -> selects P l m -> m = filter p l.
Proof. intros HP HS. eapply selects_fun; [exact HS|]. apply selects_filter. exact HP. Qed.
Lemma within_inside lo hi x : within (Some lo) (Some hi) x = true <-> lo <= x /\ x <= hi.
Proof. unfold within. rewrite Bool.andb_true_iff, !qle_true. reflexivity. Qed.

(** ** Dissipation on a grid *)
Lemma dissipation_on_grid data x0 y0 dx dy nx ny fi mu w u v o n :
  bins_on_grid data x0 y0 dx dy nx ny -> (3 <= nx)%nat -> (3 <= ny)%nat -> w <> 0 -> flow_is data u v ->
  fi = mkFinfo (Some (Z.of_nat nx, Z.of_nat ny)) o (Some (dx, dy)) n ->
  sample_viscous_dissipation data fi mu (fun _ => w) =
    (sort_bins data, Ok (map (fun b => viscous mu (d_dx u (bX b) (bY b)) (d_dy u (bX b) (bY b)) (d_dx v (bX b) (bY b)) (d_dy v (bX b) (bY b))) (sort_bins data))).
Proof.
  intros HG Hnx Hny Hw HF ->. unfold sample_viscous_dissipation. cbn [f_shape f_spacing]. rewrite !Nat2Z.id.
  set (pt := pt data x0 y0 dx dy). rewrite (sort_grid data x0 y0 dx dy nx ny HG). fold pt. cbv zeta.
  rewrite grid_length, Nat.eqb_refl. cbn [negb].
  destruct (Nat.ltb_spec nx 3); [lia|]. destruct (Nat.ltb_spec ny 3); [lia|]. cbn [orb]. f_equal. f_equal. rewrite grid_map. apply grid_ext. intros j i Hj Hi.
  assert (forall i j, (i < nx)%nat -> (j < ny)%nat -> nth (j * nx + i) (grid ny nx pt) bin0 = pt j i) as AT by (intros; apply grid_nth; assumption).
  assert (forall i j, (i < nx)%nat -> (j < ny)%nat -> bX (pt j i) = x0 + NQ i * dx /\ bY (pt j i) = y0 + NQ j * dy /\ bU (pt j i) = value u (x0 + NQ i * dx) (y0 + NQ j * dy) /\ bV (pt j i) = value v (x0 + NQ i * dx) (y0 + NQ j * dy)) as PT.
  { intros i' j' Hi' Hj'. destruct (pt_spec data x0 y0 dx dy nx ny HG i' j' Hi' Hj') as (HI & EX & EY). fold pt in HI, EX, EY. destruct (HF _ HI) as [EU EV]. rewrite EX, EY in EU, EV. auto. }
  destruct (PT i j Hi Hj) as (EX & EY & _). rewrite EX, EY.
  assert (dx <> 0) as Hdx by (apply qpos_nz, HG). assert (dy <> 0) as Hdy by (apply qpos_nz, HG).
  assert (forall F p, (forall i j, (i < nx)%nat -> (j < ny)%nat -> F (pt j i) = value p (x0 + NQ i * dx) (y0 + NQ j * dy)) ->
     gradient2 (fun k => F (nth (j * nx + k) (grid ny nx pt) bin0) * w) nx dx i = w * d_dx p (x0 + NQ i * dx) (y0 + NQ j * dy) /\
     gradient2 (fun k => F (nth (k * nx + i) (grid ny nx pt) bin0) * w) ny dy j = w * d_dy p (x0 + NQ i * dx) (y0 + NQ j * dy)) as GR.
  { intros F p HFp. set (x := x0 + NQ i * dx). set (y := y0 + NQ j * dy). split.
    - rewrite (gradient2_exact (w * (q1 p + qy p * y + qyy p * y * y)) (w * (qx p + qxy p * y)) (w * qxx p) x0 dx nx i _ Hdx Hnx Hi).
      + fold x. unfold d_dx. ring.
      + intros m Hm. rewrite AT, HFp by assumption. fold y. unfold value. ring.
    - rewrite (gradient2_exact (w * (q1 p + qx p * x + qxx p * x * x)) (w * (qy p + qxy p * x)) (w * qyy p) y0 dy ny j _ Hdy Hny Hj).
      + fold y. unfold d_dy. ring.
      + intros m Hm. rewrite AT, HFp by assumption. fold x. unfold value. ring. }
  destruct (GR bU u) as [-> ->]; [intros; apply PT; assumption|]. destruct (GR bV v) as [-> ->]; [intros; apply PT; assumption|].
  rewrite dissipation_viscous. unfold viscous. field. split; [discriminate|exact Hw].
Qed.
