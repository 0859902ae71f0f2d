(** Properties C39 and C40: synchronised and scaled spreading curves, and the points of a fit. *)
From Coq Require Import Permutation.
From Verif.Base Require Import QcX Res Np ListX.
From Verif.Model Require Import SpreadingView.
From Verif.Spec Require Import CurveSpec.
From Verif.Proofs Require Import SpreadingViewP.
Local Open Scope list_scope.

(** ** C39: synchronisation *)
(** Each curve is moved by one constant (radii and order are kept) to earlier times, one is not
    moved, and all are closest to the radius at the same time, the first at which one of the given
    curves is. *)
Theorem C39_sync : forall data r out, sync_time_at_radius data r = Ok out ->
  exists T, (exists s k, In s data /\ closest_at r s k T) /\
    Forall2 (fun s s' => exists c k, s' = later c s /\ c <= 0 /\ closest_at r s k (T - c) /\ closest_at r s' k T) data out.
Proof.
  intros data r out H. apply sync_inv in H as (ts & t0 & HT & HM & HF). exists t0. apply list_min_spec in HM as [Hin HL]. split.
  - clear HL HF. induction HT as [|s t data ts H HT IH]; [destruct Hin|]. destruct Hin as [->|Hin].
    + apply closest_spec in H as (k & H). exists s, k. split; [left; reflexivity|exact H].
    + destruct (IH Hin) as (s' & k & Hs & Hc). exists s', k. split; [right; exact Hs|exact Hc].
  - assert (forall s t, In s data -> closest_time r s = Ok t -> t0 <= t) as HL'.
    { intros s t Hs E. apply HL. clear - HT Hs E. induction HT as [|s0 t1 data ts H HT IH]; [destruct Hs|]. destruct Hs as [->|Hs]; [left; congruence|right; auto]. }
    clear HL Hin HT. induction HF as [|s s' data out (t & E & ->) HF IH]; constructor.
    + pose proof (HL' s t (or_introl eq_refl) E) as Hle. apply closest_spec in E as (k & E). exists (t0 - t), k. split; [reflexivity|]. split; [qlra'|]. split.
      * replace (t0 - (t0 - t)) with t by ring. exact E.
      * apply (closest_later r s (t0 - t)) in E. replace (t + (t0 - t)) with t0 in E by ring. exact E.
    + apply IH. intros s1 t1 Hs E1. apply (HL' s1); [right; exact Hs|exact E1].
Qed.
Print Assumptions C39_sync.
(** It works for all data but none: there must be a curve and all must have points. *)
Theorem C39_sync_errors : forall data r,
  (data <> [] /\ (forall s, In s data -> s <> []) -> exists out, sync_time_at_radius data r = Ok out) /\
  (data = [] \/ (exists s, In s data /\ s = []) -> sync_time_at_radius data r = Err ValueErr).
Proof.
  intros data r. split.
  - intros [Hne HA]. assert (exists ts, Forall2 (fun s t => closest_time r s = Ok t) data ts) as (ts & HF).
    { clear Hne. induction data as [|s data IH]; [exists []; constructor|]. destruct IH as (ts & HF); [intros; apply HA; right; assumption|].
      destruct (closest_ok r s (HA s (or_introl eq_refl))) as (t & E). exists (t :: ts). constructor; assumption. }
    destruct (list_min ts) as [t0|] eqn:M.
    + rewrite (sync_ok _ _ _ _ HF M). eauto.
    + apply list_min_none in M. subst. inversion HF; subst. exfalso; apply Hne; reflexivity.
  - intros [-> | (s & Hs & ->)]; [reflexivity|]. unfold sync_time_at_radius.
    assert (rmapM (closest_time r) data = Err ValueErr) as ->; [|reflexivity].
    induction data as [|s0 data IH]; [destruct Hs|]. simpl. destruct Hs as [->|Hs]; [reflexivity|].
    destruct s0 as [|p s0]; [reflexivity|]. destruct (closest_ok r (p :: s0)) as (t & ->); [discriminate|]. cbn [rbind]. rewrite IH by exact Hs. reflexivity.
Qed.
Print Assumptions C39_sync_errors.
(** Synchronised curves are not changed by synchronising them again. *)
Theorem C39_idempotent : forall data r out, sync_time_at_radius data r = Ok out -> sync_time_at_radius out r = Ok out.
Proof.
  intros data r out H. apply sync_inv in H as (ts & t0 & HT & HM & HF).
  assert (Forall2 (fun s t => closest_time r s = Ok t) out (map (fun _ => t0) out)) as HO.
  { clear HT HM. induction HF as [|s s' data out (t & E & ->) HF IH]; simpl; constructor; [|exact IH].
    apply (closest_time_later r s (t0 - t)) in E. rewrite E. f_equal. ring. }
  rewrite (sync_ok _ _ _ t0 HO).
  - f_equal. clear. induction out as [|s out IH]; simpl; [reflexivity|]. f_equal; [|exact IH]. replace (t0 - t0) with 0 by ring. apply later_0.
  - apply list_min_spec. split.
    + destruct out as [|s out]; [|left; reflexivity]. inversion HF; subst. inversion HT; subst. discriminate.
    + intros y Hy. apply in_map_iff in Hy as (s & <- & _). apply Qcle_refl.
Qed.
Print Assumptions C39_idempotent.
(** All data later by a constant: the result is later by the same. *)
Theorem C39_shift_equivariant : forall data r c out, sync_time_at_radius data r = Ok out ->
  sync_time_at_radius (map (later c) data) r = Ok (map (later c) out).
Proof.
  intros data r c out H. pose proof H as H0. apply sync_inv in H as (ts & t0 & HT & HM & HF).
  assert (Forall2 (fun s t => closest_time r s = Ok t) (map (later c) data) (map (fun t => t + c) ts)) as HO.
  { clear HM HF H0. induction HT; simpl; constructor; [apply closest_time_later; assumption|assumption]. }
  rewrite (sync_ok _ _ _ (t0 + c) HO).
  - rewrite (sync_ok _ _ _ t0 HT HM) in H0. injection H0 as <-. f_equal. clear. revert ts. induction data as [|s data IH]; intros [|t ts]; simpl; [reflexivity..|]. f_equal; [|apply IH].
    unfold later. rewrite !map_map. apply map_ext. intros [a b]. cbn [fst snd]. f_equal. ring.
  - apply list_min_spec in HM as [Hin HL]. apply list_min_spec. split.
    + apply in_map_iff. eauto.
    + intros y Hy. apply in_map_iff in Hy as (t & <- & Ht). specialize (HL t Ht). qlra'.
Qed.
Print Assumptions C39_shift_equivariant.

(** ** C39: scaling.  A factor is a number, here the list of only this number, or a list. *)
(** [f] gives factor [q] for curve [k] of [n]. *)
Definition factor_of (f : factor) (n k : nat) (q : Qc) : Prop := f = [q] \/ (length f = n /\ nth_error f k = Some q).
Lemma factor_bc f n k q : factor_of f n k q -> (k < n)%nat -> bc_nth f 1 k = q.
Proof.
  intros [-> | [HL H]] Hk; [reflexivity|]. unfold bc_nth. destruct (Nat.eqb_spec (length f) 1) as [E|E].
  - assert (k = 0)%nat as -> by lia. apply nth_error_nth. exact H.
  - apply nth_error_nth. exact H.
Qed.
Theorem C39_scale : forall data tau R out, length data <> 1%nat -> scale_spreading_data data tau R = Ok out ->
  length out = length data /\
  forall k s, nth_error data k = Some s -> exists t x, factor_of tau (length data) k t /\ factor_of R (length data) k x /\
    nth_error out k = Some (map (fun p => (fst p / t, snd p / x)) s).
Proof.
  intros data tau R out Hn H. unfold scale_spreading_data in H. set (n := length data) in *.
  assert (bc_length [n; length tau; length R] = Ok n /\ (length tau = 1%nat \/ length tau = n) /\ (length R = 1%nat \/ length R = n)) as (HB & Ht & HR).
  { unfold bc_length in *. cbn [filter] in *. destruct (Nat.eqb_spec n 1) as [|_]; [congruence|]. cbn [negb] in *.
    destruct (Nat.eqb_spec (length tau) 1), (Nat.eqb_spec (length R) 1); cbn [negb forallb] in *; auto.
    - destruct (Nat.eqb_spec n (length R)); [|discriminate]. cbn. auto.
    - destruct (Nat.eqb_spec n (length tau)); [|discriminate]. cbn. auto.
    - destruct (Nat.eqb_spec n (length tau)); [|discriminate]. destruct (Nat.eqb_spec n (length R)); [|discriminate]. cbn. auto. }
  rewrite HB in H. cbn [rbind] in H. injection H as <-. split; [rewrite map_length, seq_length; reflexivity|].
  intros k s Hk. assert (k < n)%nat as Hkn by (apply nth_error_Some; congruence).
  assert (forall f, length f = 1%nat \/ length f = n -> exists q, factor_of f n k q /\ bc_nth f 1 k = q) as HF.
  { intros f [E|E].
    - destruct f as [|q [|? ?]]; try discriminate. exists q. split; [left; reflexivity|reflexivity].
    - destruct (nth_error f k) as [q|] eqn:Q; [|apply nth_error_None in Q; lia]. assert (factor_of f n k q) as F by (right; auto).
      exists q. split; [exact F|]. eapply factor_bc; eassumption. }
  destruct (HF tau Ht) as (t & F1 & E1). destruct (HF R HR) as (x & F2 & E2). exists t, x. split; [exact F1|]. split; [exact F2|].
  rewrite nth_error_map, nth_error_seq by exact Hkn. cbn [option_map]. rewrite Nat.add_0_l, E1, E2. f_equal. unfold scale_series, bc_nth. fold n.
  destruct (Nat.eqb_spec n 1); [congruence|]. rewrite (nth_error_nth _ _ _ Hk). reflexivity.
Qed.
Print Assumptions C39_scale.
(** TypeError exactly if a list of factors has not as many elements as there are curves. *)
Theorem C39_scale_errors : forall data tau R, length data <> 1%nat ->
  (scale_spreading_data data tau R = Err TypeErr <->
     (length tau <> 1 /\ length tau <> length data)%nat \/ (length R <> 1 /\ length R <> length data)%nat).
Proof.
  intros data tau R Hn. unfold scale_spreading_data, bc_length. cbn [filter].
  destruct (Nat.eqb_spec (length data) 1) as [|_]; [congruence|]. cbn [negb].
  destruct (Nat.eqb_spec (length tau) 1), (Nat.eqb_spec (length R) 1); cbn [negb forallb];
    repeat match goal with |- context [Nat.eqb ?a ?b] => destruct (Nat.eqb_spec a b) end; cbn [andb rbind]; split; intros H; first [discriminate | reflexivity | lia | exfalso; lia].
Qed.
Print Assumptions C39_scale_errors.
(** A single curve is given once for each element of a list of factors. *)
Theorem C39_one_curve : forall s tau x, scale_spreading_data [s] tau [x] = Ok (map (fun t => map (fun p => (fst p / t, snd p / x)) s) tau).
Proof.
  intros s tau x. unfold scale_spreading_data, bc_length. cbn [filter length Nat.eqb negb].
  destruct (Nat.eqb_spec (length tau) 1) as [E|E]; cbn [negb forallb rbind].
  - destruct tau as [|t [|? ?]]; try discriminate. reflexivity.
  - f_equal. unfold bc_nth. cbn [length Nat.eqb]. destruct (Nat.eqb_spec (length tau) 1); [congruence|]. unfold scale_series. cbn [nth].
    apply nth_error_ext'. intros k. rewrite !nth_error_map. destruct (Nat.lt_ge_cases k (length tau)) as [H|H].
    + rewrite nth_error_seq by exact H. rewrite (nth_error_nth' tau 1 H). reflexivity.
    + rewrite (proj2 (nth_error_None tau k)) by exact H. rewrite (proj2 (nth_error_None (seq 0 (length tau)) k)) by (rewrite seq_length; exact H). reflexivity.
Qed.
Print Assumptions C39_one_curve.
(** Factors 1 change nothing: the default is the data itself. *)
Theorem C39_default : forall data, data <> [] -> combine_spreading_data data None [1] [1] = Ok data.
Proof.
  intros data Hne. unfold combine_spreading_data, scale_spreading_data.
  assert (bc_length [length data; 1; 1]%nat = Ok (length data)) as E.
  { unfold bc_length. cbn [filter Nat.eqb negb]. destruct (Nat.eqb_spec (length data) 1) as [E|E]; cbn [negb]; [rewrite E|]; reflexivity. }
  cbn [length]. rewrite E. cbn [rbind]. f_equal. apply nth_error_ext'. intros k. rewrite nth_error_map.
  destruct (Nat.lt_ge_cases k (length data)) as [H|H].
  - rewrite nth_error_seq by exact H. cbn [option_map]. rewrite Nat.add_0_l. rewrite (nth_error_nth' data [] H). f_equal.
    unfold bc_nth at 1 2. cbn [length Nat.eqb nth]. unfold scale_series.
    assert (bc_nth data [] k = nth k data []) as ->. { unfold bc_nth. destruct (Nat.eqb_spec (length data) 1) as [E1|E1]; [|reflexivity]. assert (k = 0)%nat as -> by lia. reflexivity. }
    transitivity (map (fun p : Qc * Qc => p) (nth k data [])); [|apply map_id]. apply map_ext. intros [a b]. cbn [fst snd]. f_equal; field; discriminate.
  - rewrite (proj2 (nth_error_None data k)) by exact H. rewrite (proj2 (nth_error_None (seq 0 (length data)) k)) by (rewrite seq_length; exact H). reflexivity.
Qed.
Print Assumptions C39_default.
(** Synchronisation comes after scaling. *)
Theorem C39_scaled_first : forall data r tau R out, combine_spreading_data data (Some r) tau R = Ok out ->
  exists scaled, scale_spreading_data data tau R = Ok scaled /\ sync_time_at_radius scaled r = Ok out.
Proof.
  intros data r tau R out H. unfold combine_spreading_data in H. destruct (scale_spreading_data data tau R) as [sc|] eqn:E; [|discriminate]. eauto.
Qed.
Print Assumptions C39_scaled_first.

Example C39_case :
  sync_time_at_radius [[(ZQ 0, ZQ 0); (ZQ 1, ZQ 2); (ZQ 2, ZQ 4)]; [(ZQ 5, ZQ 1); (ZQ 7, ZQ 3)]] (ZQ 2) =
    Ok [[(ZQ 0, ZQ 0); (ZQ 1, ZQ 2); (ZQ 2, ZQ 4)]; [(ZQ 1, ZQ 1); (ZQ 3, ZQ 3)]].
Proof.
  match goal with |- ?a = Ok ?b => assert (match a with Ok l => Nat.eqb (length l) 2 && forallb (fun c => (Nat.eqb (length (fst c)) (length (snd c)) && forallb (fun p => qeq (fst (fst p)) (fst (snd p)) && qeq (snd (fst p)) (snd (snd p))) (combine (fst c) (snd c)))) (combine l b) | Err _ => false end = true)%bool as E by (vm_compute; reflexivity) end.
  destruct (sync_time_at_radius _ _) as [l|e]; [|discriminate]. f_equal. apply Bool.andb_true_iff in E as [EN E]. apply Nat.eqb_eq in EN.
  destruct l as [|c1 [|c2 [|? ?]]]; simpl in EN; try discriminate. cbn [combine forallb fst snd] in E.
  repeat match goal with H : (_ && _)%bool = true |- _ => apply Bool.andb_true_iff in H as [? ?] end.
  repeat match goal with H : Nat.eqb _ _ = true |- _ => apply Nat.eqb_eq in H; cbn [length] in H end.
  destruct c1 as [|[? ?] [|[? ?] [|[? ?] [|? ?]]]]; simpl in *; try discriminate. destruct c2 as [|[? ?] [|[? ?] [|? ?]]]; simpl in *; try discriminate.
  repeat match goal with H : (_ && _)%bool = true |- _ => apply Bool.andb_true_iff in H as [? ?] end.
  repeat match goal with H : qeq _ _ = true |- _ => apply qeq_true in H; subst end. reflexivity.
Qed.

(** ** C40: the points of a fit *)
Definition all_points (p : Qc * Qc) : bool := true.
(** The fitted curve is given for the times within the (inclusive) limits if there is one, else for all. *)
Theorem C40_limits : forall s lims,
  ((exists p, In p s /\ within lims (fst p) = true) -> fitted_times s (Some lims) = filter (within lims) (map fst s)) /\
  ((forall p, In p s -> within lims (fst p) = false) -> fitted_times s (Some lims) = map fst s) /\
  fitted_times s None = map fst s.
Proof.
  intros s lims. unfold fitted_times. rewrite !inds_points. unfold used. split; [|split].
  - intros (p & Hp & HW). assert (existsb (fun p => within lims (fst p)) s = true) as -> by (apply existsb_exists; eauto).
    clear. induction s as [|p s IH]; simpl; [reflexivity|]. destruct (within lims (fst p)); simpl; [f_equal|]; exact IH.
  - intros H. assert (existsb (fun p => within lims (fst p)) s = false) as ->.
    { destruct (existsb _ s) eqn:E; [|reflexivity]. apply existsb_exists in E as (p & Hp & HW). rewrite H in HW by exact Hp. discriminate. }
    f_equal. apply filter_true.
  - f_equal. apply filter_true.
Qed.
Print Assumptions C40_limits.
(** The fit uses of these the points with positive times. *)
Theorem C40_fit_points : forall s lims,
  ((exists p, In p s /\ within lims (fst p) = true) -> forall p, In p (fit_points s (Some lims)) <-> In p s /\ within lims (fst p) = true /\ 0 < fst p) /\
  ((forall p, In p s -> within lims (fst p) = false) -> forall p, In p (fit_points s (Some lims)) <-> In p s /\ 0 < fst p) /\
  (forall p, In p (fit_points s None) <-> In p s /\ 0 < fst p).
Proof.
  intros s lims. split; [|split].
  - intros (p0 & Hp & HW) p. rewrite fit_points_eq, filter_In, Bool.andb_true_iff, qlt_true. unfold used.
    assert (existsb (fun p => within lims (fst p)) s = true) as -> by (apply existsb_exists; eauto). reflexivity.
  - intros H p. rewrite fit_points_eq, filter_In, Bool.andb_true_iff, qlt_true. unfold used.
    assert (existsb (fun p => within lims (fst p)) s = false) as ->.
    { destruct (existsb _ s) eqn:E; [|reflexivity]. apply existsb_exists in E as (q & Hq & HW). rewrite H in HW by exact Hq. discriminate. }
    tauto.
  - intros p. rewrite fit_points_eq, filter_In, Bool.andb_true_iff, qlt_true. unfold used. tauto.
Qed.
Print Assumptions C40_fit_points.
(** In the order of the data: a subsequence of it. *)
Theorem C40_fit_order : forall s lims, exists f, fit_points s lims = filter f s.
Proof. intros s lims. rewrite fit_points_eq. eauto. Qed.
(** Limits which hold only times up to 0 leave no point for the fit: not all are used then. *)
Theorem C40_nonpositive_times_refuted : exists s lims, s <> [] /\ (exists p, In p s /\ 0 < fst p) /\ fit_points s (Some lims) = [].
Proof.
  exists [(0, 1); (1, 1); (ZQ 2, 1)], (None, Some (Q2Qc (1 # 2))). split; [discriminate|]. split.
  - exists (1, 1). split; [simpl; auto|]. reflexivity.
  - vm_compute. reflexivity.
Qed.
Example C40_case : fit_points [(0, 1); (1, 1); (ZQ 2, 1); (ZQ 3, 1)] (Some (Some 1, Some (ZQ 2))) = [(1, 1); (ZQ 2, 1)].
Proof. vm_compute. reflexivity. Qed.
