(** Scaling and synchronisation of curves, choice of points for fits. *)
From Verif.Base Require Import QcX Res Np ListX.
From Verif.Model Require Import SpreadingView.
From Verif.Spec Require Import CurveSpec.
Local Open Scope list_scope.

Lemma argmin_spec' l k : argmin l = Some k ->
  exists y, nth_error l k = Some y /\ forall j z, nth_error l j = Some z -> y <= z /\ ((j < k)%nat -> y < z).
Proof.
  intros H. apply argmin_spec in H as (y & E & H1 & H2). exists y. split; [exact E|]. intros j z Hz. split; [apply H1; eapply nth_error_In; exact Hz|].
  intros Hj. eapply H2; eassumption.
Qed.
Lemma closest_spec r s t : closest_time r s = Ok t <-> exists k, closest_at r s k t.
Proof.
  unfold closest_time. split.
  - destruct (argmin (map (fun p => qabs (snd p - r)) s)) as [k|] eqn:E; [|discriminate]. cbn [of_option rbind]. intros H. injection H as <-.
    apply argmin_spec' in E as (y & E & HL). exists k. rewrite nth_error_map in E. destruct (nth_error s k) as [[t x]|] eqn:P; [|discriminate].
    injection E as E. cbn [snd] in E. exists x. rewrite (nth_error_nth _ _ _ P). cbn [fst]. split; [exact P|].
    intros j t' x' Hj. specialize (HL j (qabs (x' - r))). rewrite nth_error_map, Hj in HL. rewrite E. apply HL. reflexivity.
  - intros (k & x & Hk & HL). destruct (argmin_some (map (fun p => qabs (snd p - r)) s)) as (k' & E).
    { destruct s; [destruct k; discriminate|discriminate]. }
    rewrite E. cbn [of_option rbind]. apply argmin_spec' in E as (y & E & HM). rewrite nth_error_map in E.
    destruct (nth_error s k') as [[t' x']|] eqn:P; [|discriminate]. injection E as E. cbn [snd] in E.
    assert (k' = k) as ->.
    { destruct (Nat.lt_trichotomy k' k) as [H|[H|H]]; [|exact H|].
      - destruct (HL k' t' x' P) as [_ A]. specialize (A H). specialize (HM k (qabs (x - r))). rewrite nth_error_map, Hk in HM. destruct (HM eq_refl) as [B _]. rewrite <- E in B. exfalso. qlra.
      - destruct (HL k' t' x' P) as [A _]. specialize (HM k (qabs (x - r))). rewrite nth_error_map, Hk in HM. destruct (HM eq_refl) as [_ B]. specialize (B H). rewrite <- E in B. exfalso. qlra. }
    rewrite (nth_error_nth _ _ _ Hk). reflexivity.
Qed.
Lemma closest_ok r s : s <> [] -> exists t, closest_time r s = Ok t.
Proof.
  intros H. unfold closest_time. destruct (argmin_some (map (fun p => qabs (snd p - r)) s)) as (k & ->); [destruct s; [congruence|discriminate]|].
  cbn [of_option rbind]. eauto.
Qed.
Lemma closest_empty r : closest_time r [] = Err ValueErr.
Proof. reflexivity. Qed.
Lemma closest_later r s c k t : closest_at r s k t -> closest_at r (later c s) k (t + c).
Proof.
  intros (x & Hk & HL). exists x. unfold later. split; [rewrite nth_error_map, Hk; reflexivity|].
  intros j t' x' Hj. rewrite nth_error_map in Hj. destruct (nth_error s j) as [[t0 x0]|] eqn:E; [|discriminate]. cbn [option_map fst snd] in Hj.
  assert (x0 = x') as -> by congruence. eapply HL. exact E.
Qed.
Lemma closest_time_later r s c t : closest_time r s = Ok t -> closest_time r (later c s) = Ok (t + c).
Proof. intros H. apply closest_spec in H as (k & H). apply closest_spec. exists k. apply closest_later. exact H. Qed.
Lemma later_0 s : later 0 s = s.
Proof. unfold later. transitivity (map (fun p => p) s); [|apply map_id]. apply map_ext. intros [t x]. cbn [fst snd]. f_equal. ring. Qed.
Lemma shift_eq t t0 s : map (fun p : Qc * Qc => (fst p - (t - t0), snd p)) s = later (t0 - t) s.
Proof. unfold later. apply map_ext. intros [a b]. cbn [fst snd]. f_equal. ring. Qed.

Lemma rmapM_ok_Forall2 {A B} (f : A -> res B) l bs : Forall2 (fun a b => f a = Ok b) l bs -> rmapM f l = Ok bs.
Proof. induction 1 as [|a b l bs H HF IH]; simpl; [reflexivity|]. rewrite H. cbn [rbind]. rewrite IH. reflexivity. Qed.

Lemma sync_inv data r out : sync_time_at_radius data r = Ok out ->
  exists ts t0, Forall2 (fun s t => closest_time r s = Ok t) data ts /\ list_min ts = Some t0 /\
    Forall2 (fun s s' => exists t, closest_time r s = Ok t /\ s' = later (t0 - t) s) data out.
Proof.
  unfold sync_time_at_radius. intros H. destruct (rmapM (closest_time r) data) as [ts|] eqn:E; [|discriminate]. cbn [rbind] in H.
  destruct (list_min ts) as [t0|] eqn:M; [|discriminate]. cbn [of_option rbind] in H. exists ts, t0. split; [apply rmapM_Forall2; exact E|]. split; [exact M|].
  apply rmapM_Forall2 in H. revert H. apply Forall2_impl. intros s s' Hs. destruct (closest_time r s) as [t|]; [|discriminate].
  cbn [rbind] in Hs. injection Hs as <-. exists t. split; [reflexivity|apply shift_eq].
Qed.
Lemma sync_ok data r ts t0 : Forall2 (fun s t => closest_time r s = Ok t) data ts -> list_min ts = Some t0 ->
  sync_time_at_radius data r = Ok (map (fun p => later (t0 - snd p) (fst p)) (combine data ts)).
Proof.
  intros HF HM. unfold sync_time_at_radius. rewrite (rmapM_ok_Forall2 _ _ _ HF). cbn [rbind]. rewrite HM. cbn [of_option rbind]. clear HM.
  apply rmapM_ok_Forall2. induction HF as [|s t data ts H HF IH]; simpl; constructor; [|exact IH]. rewrite H. cbn [rbind]. rewrite shift_eq. reflexivity.
Qed.

(** ** Points of a fit *)
Lemma chosen_map {A} (f : A -> bool) l : chosen (map f l) l = filter f l.
Proof.
  unfold chosen. induction l as [|a l IH]; simpl; [reflexivity|]. destruct (f a); simpl; [f_equal|]; exact IH.
Qed.
Definition used (s : curve) lims (p : Qc * Qc) : bool :=
  match lims with None => true | Some lims => if existsb (fun p => within lims (fst p)) s then within lims (fst p) else true end.
Lemma existsb_map {A B} (f : A -> B) (g : B -> bool) l : existsb g (map f l) = existsb (fun a => g (f a)) l.
Proof. induction l; simpl; congruence. Qed.
Lemma existsb_ext_in {A} (f g : A -> bool) l : (forall a, In a l -> f a = g a) -> existsb f l = existsb g l.
Proof. induction l; simpl; intros H; [reflexivity|]. rewrite H by auto. f_equal. auto. Qed.
Lemma inds_eq s lims : get_inds_in_limits s lims = map (used s lims) s.
Proof.
  unfold get_inds_in_limits. destruct lims as [[lo hi]|]; [|reflexivity].
  destruct s as [|p0 s0] eqn:Es; [destruct lo, hi; reflexivity|]. rewrite <- Es in *. assert (s <> []) as Hne by congruence. clear Es.
  assert (forall p, In p s -> match lo with Some x => Some x | None => list_min (map fst s) end <> None) as _ by (intros; destruct lo; [discriminate|]; rewrite list_min_none; destruct s; [congruence|discriminate]).
  destruct (match lo with Some x => Some x | None => list_min (map fst s) end) as [xmin|] eqn:EL.
  2:{ destruct lo; [discriminate|]. apply list_min_none in EL. destruct s; [congruence|discriminate]. }
  destruct (match hi with Some x => Some x | None => list_max (map fst s) end) as [xmax|] eqn:EH.
  2:{ destruct hi; [discriminate|]. apply list_max_none in EH. destruct s; [congruence|discriminate]. }
  assert (forall p, In p s -> (qle xmin (fst p) && qle (fst p) xmax)%bool = within (lo, hi) (fst p)) as HW.
  { intros p Hp. unfold within. cbn [fst snd]. f_equal.
    - destruct lo; [congruence|]. apply list_min_spec in EL as [_ EL]. destruct (qle_spec xmin (fst p)) as [|N]; [reflexivity|]. exfalso. apply N, EL, in_map, Hp.
    - destruct hi; [congruence|]. apply list_max_spec in EH as [_ EH]. destruct (qle_spec (fst p) xmax) as [|N]; [reflexivity|]. exfalso. apply N, EH, in_map, Hp. }
  cbv zeta. rewrite existsb_map. rewrite (existsb_ext_in _ _ _ HW). unfold used. cbv beta.
  destruct (existsb (fun p => within (lo, hi) (fst p)) s); [|reflexivity]. apply map_ext_in. exact HW.
Qed.
Lemma inds_points s lims : chosen (get_inds_in_limits s lims) s = filter (used s lims) s.
Proof. rewrite inds_eq. apply chosen_map. Qed.
Lemma combine_map_l {A B} (f : A -> B) l : combine (map f l) l = map (fun a => (f a, a)) l.
Proof. induction l; simpl; congruence. Qed.
Lemma fit_points_eq s lims : fit_points s lims = filter (fun p => (used s lims p && qlt 0 (fst p))%bool) s.
Proof. unfold fit_points. rewrite inds_eq, combine_map_l, map_map. cbn [fst snd]. apply chosen_map. Qed.
Lemma nth_error_ext' {A} (l m : list A) : (forall k, nth_error l k = nth_error m k) -> l = m.
Proof.
  revert m; induction l as [|a l IH]; intros [|b m] H; [reflexivity|specialize (H 0%nat); discriminate..|].
  pose proof (H 0%nat) as H0. injection H0 as ->. f_equal. apply IH. intros k. apply (H (S k)).
Qed.
Lemma filter_true {A} (l : list A) : filter (fun _ => true) l = l.
Proof. induction l; simpl; congruence. Qed.
