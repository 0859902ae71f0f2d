(** Property C59: power law fits of spreading data. *)
From Coq Require Import Reals.
From Verif.Base Require Import QcX QcR Res Np ListX.
From Verif.Model Require Import SpreadingView PowerFit.
From Verif.Spec Require Import CurveSpec.
From Verif.Proofs Require Import SpreadingViewP PowerFitP.
From Coq Require Import Lra.
Local Open Scope R_scope.
Local Open Scope list_scope.

(** The points of the fit (C40) have two different times, and positive radii (times always are). *)
Definition two_times (pts : curve) : Prop := exists p q, In p pts /\ In q pts /\ fst p <> fst q.
Definition positive_radii (pts : curve) : Prop := forall p, In p pts -> (0 < snd p)%Qc.

Lemma fit_time_pos s lims p : In p (fit_points s lims) -> 0 < QR (fst p).
Proof. rewrite fit_points_eq, filter_In, Bool.andb_true_iff, qlt_true. intros (_ & _ & H). apply QR_pos. exact H. Qed.
Lemma two_times_x s lims : two_times (fit_points s lims) -> two_x (logs (fit_points s lims)).
Proof.
  intros (p & q & Hp & Hq & N). exists (log10 (QR (fst p)), log10 (QR (snd p))), (log10 (QR (fst q)), log10 (QR (snd q))).
  split; [apply in_map_iff; exists p; auto|]. split; [apply in_map_iff; exists q; auto|]. cbn [fst]. intros E. apply N. apply QR_inj.
  apply log10_inj; [eapply fit_time_pos; eassumption..|exact E].
Qed.

(** There is exactly one best fit. *)
Theorem C59_unique_fit : forall s lims, two_times (fit_points s lims) ->
  exists a k, 0 < a /\ fit_series s lims a k /\ forall a' k', fit_series s lims a' k' -> a' = a /\ k' = k.
Proof.
  intros s lims H. apply two_times_x in H. destruct (min_exists _ H) as (la & k & HM). exists (Rpower 10 la), k. split; [apply power_pos|]. split.
  - exists la. split; [|reflexivity]. intros. rewrite !squares_sse. apply HM.
  - intros a' k' (la' & HM' & ->). destruct (min_unique _ la k la' k' H HM) as [<- <-].
    + intros u v. rewrite <- !squares_sse. apply HM'.
    + auto.
Qed.
Print Assumptions C59_unique_fit.
(** Data which follow r = a t^k within the limits give these a and k. *)
Theorem C59_recovers : forall s lims a k, 0 < a -> two_times (fit_points s lims) ->
  (forall p, In p (fit_points s lims) -> QR (snd p) = a * Rpower (QR (fst p)) k) ->
  forall a' k', fit_series s lims a' k' <-> a' = a /\ k' = k.
Proof.
  intros s lims a k Ha H2 HE a' k'. pose proof (two_times_x _ _ H2) as HX.
  assert (forall u v, sse (log10 a) k (logs (fit_points s lims)) <= sse u v (logs (fit_points s lims))) as HM.
  { intros u v. rewrite (sse_exact (log10 a) k); [apply sse_nonneg|]. intros x y Hin. apply in_map_iff in Hin as (p & [= <- <-] & Hp).
    rewrite (HE p Hp), log10_mult, log10_power by (try exact Ha; apply power_pos). reflexivity. }
  split.
  - intros (la & HM' & ->). destruct (min_unique _ (log10 a) k la k' HX HM) as [<- <-].
    + intros u v. rewrite <- !squares_sse. apply HM'.
    + rewrite pow10_log by exact Ha. auto.
  - intros [-> ->]. exists (log10 a). split; [intros; rewrite !squares_sse; apply HM|]. rewrite pow10_log by exact Ha. reflexivity.
Qed.
Print Assumptions C59_recovers.
(** Then the fitted curve is the data: at positive times within the output limits. *)
Theorem C59_fitted_curve : forall s lims a k, 0 < a ->
  (forall p, In p s -> QR (snd p) = a * Rpower (QR (fst p)) k) ->
  fitted_series s lims a k = map (fun p => (QR (fst p), QR (snd p))) (chosen (get_inds_in_limits s lims) s).
Proof.
  intros s lims a k Ha HE. unfold fitted_series, fitted_times. rewrite map_map. apply map_ext_in. intros p Hp. rewrite inds_points in Hp. apply filter_In in Hp as [Hp _].
  rewrite (HE p Hp). reflexivity.
Qed.
Print Assumptions C59_fitted_curve.

(** Scaling time and radius (as C39 does): the index is the same and the amplitude is scaled. *)
Definition scaled_limits (tau : Qc) (lims : option (option Qc * option Qc)) : option (option Qc * option Qc) :=
  option_map (fun l => (option_map (fun x => x / tau)%Qc (fst l), option_map (fun x => x / tau)%Qc (snd l))) lims.
Lemma within_scaled tau lims t : (0 < tau)%Qc ->
  within (option_map (fun x => x / tau)%Qc (fst lims), option_map (fun x => x / tau)%Qc (snd lims)) (t / tau)%Qc = within lims t.
Proof.
  intros H. destruct lims as [lo hi]. unfold within. cbn [fst snd].
  assert (forall x y : Qc, (x / tau <= y / tau <-> x <= y)%Qc) as HI.
  { intros x y. rewrite qle_div_iff by exact H. replace (x / tau * tau)%Qc with x; [reflexivity|]. field. apply qpos_nz. exact H. }
  assert (forall x y : Qc, qle (x / tau) (y / tau) = qle x y) as HQ.
  { intros x y. destruct (qle_spec (x / tau) (y / tau)) as [A|A], (qle_spec x y) as [B|B]; try reflexivity; exfalso; rewrite HI in A; contradiction. }
  f_equal; [destruct lo|destruct hi]; cbn [option_map]; auto.
Qed.
Lemma filter_map {A B} (f : A -> B) (g : B -> bool) l : filter g (map f l) = map f (filter (fun a => g (f a)) l).
Proof. induction l as [|a l IH]; simpl; [reflexivity|]. destruct (g (f a)); simpl; [f_equal|]; exact IH. Qed.
Lemma fit_points_scaled tau x s lims : (0 < tau)%Qc -> fit_points (scale_series tau x s) (scaled_limits tau lims) = scale_series tau x (fit_points s lims).
Proof.
  intros H. rewrite !fit_points_eq. unfold scale_series. rewrite filter_map. f_equal. apply filter_ext_in. intros p Hp. cbn [fst]. f_equal.
  - unfold used, scaled_limits. destruct lims as [lims|]; [|reflexivity]. cbn [option_map fst]. rewrite within_scaled by exact H.
    rewrite existsb_map. cbn [fst]. rewrite (existsb_ext_in _ (fun p => within lims (fst p))) by (intros; apply within_scaled; exact H). reflexivity.
  - destruct (qlt_spec 0 (fst p / tau)) as [A|A], (qlt_spec 0 (fst p)) as [B|B]; try reflexivity; exfalso.
    + apply B. replace (fst p) with (fst p / tau * tau)%Qc by (field; apply qpos_nz; exact H). apply qmult_pos; assumption.
    + apply A. unfold Qcdiv. apply qmult_pos; [exact B|apply qinv_pos; exact H].
Qed.
Theorem C59_scaled : forall s lims tau x a k, (0 < tau)%Qc -> (0 < x)%Qc -> positive_radii (fit_points s lims) ->
  fit_series s lims a k -> fit_series (scale_series tau x s) (scaled_limits tau lims) (a * Rpower (QR tau) k / QR x) k.
Proof.
  intros s lims tau x a k Ht Hx HR (la & HM & ->).
  pose proof (proj1 (QR_pos tau) Ht) as Ht'. pose proof (proj1 (QR_pos x) Hx) as Hx'.
  set (T := log10 (QR tau)). set (X := log10 (QR x)).
  assert (forall u v, squares u v (fit_points (scale_series tau x s) (scaled_limits tau lims)) = squares (u - v * T + X) v (fit_points s lims)) as HS.
  { intros u v. rewrite fit_points_scaled by exact Ht. unfold squares, scale_series. rewrite map_map. f_equal. apply map_ext_in. intros p Hp. cbn [fst snd].
    pose proof (fit_time_pos _ _ _ Hp) as P1. pose proof (proj1 (QR_pos _) (HR p Hp)) as P2.
    rewrite !QR_div, !log10_div by (assumption || (apply qpos_nz; assumption)). fold T X. f_equal. ring. }
  exists (la + k * T - X). split.
  - intros u v. rewrite !HS. replace (la + k * T - X - k * T + X) with la by ring. apply HM.
  - apply log10_inj; [| |].
    + apply Rdiv_lt_0_compat; [|exact Hx']. apply Rmult_lt_0_compat; apply power_pos.
    + apply power_pos.
    + rewrite log10_div, log10_mult, !log10_power by (try exact Hx'; try apply power_pos; apply Rmult_lt_0_compat; apply power_pos). fold T X.
      replace (log10 10) with 1 by (unfold log10; pose proof ln10_pos; field; lra). ring.
Qed.
Print Assumptions C59_scaled.

(** r = 2 t: the fit is a = 2, k = 1, whatever happened before time 1. *)
Example C59_case : forall a k,
  fit_series [(0, 1); (Q2Qc (1#2), 1); (1, ZQ 2); (ZQ 2, ZQ 4); (ZQ 3, ZQ 6)]%Qc (Some (Some 1%Qc, None)) a k <-> a = 2 /\ k = 1.
Proof.
  assert (fit_points [(0, 1); (Q2Qc (1#2), 1); (1, ZQ 2); (ZQ 2, ZQ 4); (ZQ 3, ZQ 6)]%Qc (Some (Some 1%Qc, None)) = [(1, ZQ 2); (ZQ 2, ZQ 4); (ZQ 3, ZQ 6)]%Qc) as E by (vm_compute; reflexivity).
  assert (forall z, 0 < QR z -> QR (ZQ 2 * z)%Qc = 2 * Rpower (QR z) 1) as H1.
  { intros z Hz. rewrite Rpower_1 by exact Hz. rewrite QR_mul. f_equal. change (ZQ 2) with (1 + 1)%Qc. rewrite QR_add, QR_1. ring. }
  intros a k. apply C59_recovers.
  - lra.
  - rewrite E. exists (1, ZQ 2)%Qc, (ZQ 2, ZQ 4)%Qc. split; [simpl; auto|]. split; [simpl; auto|]. cbn [fst]. discriminate.
  - rewrite E. intros p [<- | [<- | [<- | []]]]; cbn [fst snd].
    + rewrite <- H1; [f_equal; apply Qc_is_canon; reflexivity|]. apply QR_pos. reflexivity.
    + rewrite <- H1; [f_equal; apply Qc_is_canon; reflexivity|]. apply QR_pos. reflexivity.
    + rewrite <- H1; [f_equal; apply Qc_is_canon; reflexivity|]. apply QR_pos. reflexivity.
Qed.
