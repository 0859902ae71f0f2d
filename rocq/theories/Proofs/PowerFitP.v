(** Least squares for a line. *)
From Coq Require Import Reals.
From Verif.Base Require Import QcX QcR ListX.
From Verif.Model Require Import SpreadingView PowerFit.
From Coq Require Import Lra.
Local Open Scope R_scope.
Local Open Scope list_scope.

Definition sse (a b : R) (l : list (R * R)) : R := fold_right Rplus 0 (map (fun p => Rsqr (snd p - (a + b * fst p))) l).
Definition logs (pts : curve) : list (R * R) := map (fun p => (log10 (QR (fst p)), log10 (QR (snd p)))) pts.
Lemma squares_sse a b pts : squares a b pts = sse a b (logs pts).
Proof. unfold squares, sse, logs. rewrite map_map. reflexivity. Qed.
Definition rsum (l : list R) : R := fold_right Rplus 0 l.
Lemma rsum_nonneg l : (forall x, In x l -> 0 <= x) -> 0 <= rsum l.
Proof. induction l as [|x l IH]; simpl; intros H; [lra|]. pose proof (H x (or_introl eq_refl)). assert (0 <= rsum l) by (apply IH; intros; apply H; auto). unfold rsum in *. lra. Qed.
Lemma rsum_zero l : (forall x, In x l -> 0 <= x) -> rsum l <= 0 -> forall x, In x l -> x = 0.
Proof.
  induction l as [|y l IH]; simpl; intros H HS x Hx; [destruct Hx|]. pose proof (H y (or_introl eq_refl)) as Hy.
  assert (0 <= rsum l) as Hl by (apply rsum_nonneg; intros; apply H; auto). unfold rsum in *. simpl in HS. destruct Hx as [<- | Hx]; [lra|].
  apply IH; [intros; apply H; auto|lra|exact Hx].
Qed.
Lemma sse_nonneg a b l : 0 <= sse a b l.
Proof. apply (rsum_nonneg (map _ l)). intros x Hx. apply in_map_iff in Hx as (p & <- & _). apply Rle_0_sqr. Qed.
Lemma sse_zero a b l : sse a b l <= 0 -> forall x y, In (x, y) l -> y = a + b * x.
Proof.
  intros H x y Hin. assert (Rsqr (y - (a + b * x)) = 0) as E.
  { apply (rsum_zero (map (fun p => Rsqr (snd p - (a + b * fst p))) l)); [|exact H|].
    - intros z Hz. apply in_map_iff in Hz as (p & <- & _). apply Rle_0_sqr.
    - apply in_map_iff. exists (x, y). auto. }
  apply Rsqr_0_uniq in E. lra.
Qed.
Lemma sse_exact a b l : (forall x y, In (x, y) l -> y = a + b * x) -> sse a b l = 0.
Proof.
  unfold sse. induction l as [|[x y] l IH]; simpl; intros H; [reflexivity|]. rewrite IH by (intros; apply H; auto). rewrite (H x y) by auto. unfold Rsqr. ring.
Qed.
(** The sum at the middle of two lines. *)
Lemma sse_mid a b a' b' l :
  sse ((a + a') / 2) ((b + b') / 2) l = (sse a b l + sse a' b' l) / 2 - rsum (map (fun p => Rsqr ((a' - a) + (b' - b) * fst p)) l) / 4.
Proof.
  unfold sse, rsum. induction l as [|[x y] l IH]; simpl; [field|]. rewrite IH. unfold Rsqr. field.
Qed.
Definition two_x (l : list (R * R)) : Prop := exists p q, In p l /\ In q l /\ fst p <> fst q.
Lemma line_zero a b x x' : x <> x' -> a + b * x = 0 -> a + b * x' = 0 -> a = 0 /\ b = 0.
Proof. intros N H1 H2. assert (b * (x - x') = 0) as E by lra. apply Rmult_integral in E as [E|E]; [|lra]. subst b. lra. Qed.
Lemma min_unique l a b a' b' : two_x l -> (forall u v, sse a b l <= sse u v l) -> (forall u v, sse a' b' l <= sse u v l) -> a = a' /\ b = b'.
Proof.
  intros (p & q & Hp & Hq & N) H1 H2. pose proof (H1 a' b'). pose proof (H2 a b). pose proof (H1 ((a + a') / 2) ((b + b') / 2)) as HM.
  rewrite sse_mid in HM. assert (rsum (map (fun p => Rsqr ((a' - a) + (b' - b) * fst p)) l) <= 0) as HZ by lra.
  pose proof (rsum_zero _ (fun x Hx => ltac:(apply in_map_iff in Hx as (r & <- & _); apply Rle_0_sqr)) HZ) as HA.
  assert (forall r, In r l -> (a' - a) + (b' - b) * fst r = 0) as HB.
  { intros r Hr. apply Rsqr_0_uniq. apply HA. apply in_map_iff. eauto. }
  destruct (line_zero (a' - a) (b' - b) (fst p) (fst q) N (HB p Hp) (HB q Hq)). lra.
Qed.
(** Existence, by the normal equations. *)
Definition Sn (l : list (R * R)) := rsum (map (fun _ => 1) l).
Definition Sx (l : list (R * R)) := rsum (map fst l).
Definition Sy (l : list (R * R)) := rsum (map snd l).
Definition Sxx (l : list (R * R)) := rsum (map (fun p => fst p * fst p) l).
Definition Sxy (l : list (R * R)) := rsum (map (fun p => fst p * snd p) l).
Lemma sse_expand a b l u v : sse u v l = sse a b l
  - 2 * ((u - a) * (Sy l - a * Sn l - b * Sx l) + (v - b) * (Sxy l - a * Sx l - b * Sxx l))
  + rsum (map (fun p => Rsqr ((u - a) + (v - b) * fst p)) l).
Proof.
  unfold sse, Sn, Sx, Sy, Sxx, Sxy, rsum. induction l as [|[x y] l IH]; simpl; [ring|]. rewrite IH. unfold Rsqr. ring.
Qed.
Lemma dispersion l c d : rsum (map (fun p => Rsqr (c * fst p - d)) l) = c * c * Sxx l - 2 * c * d * Sx l + d * d * Sn l.
Proof. unfold Sn, Sx, Sxx, rsum. induction l as [|[x y] l IH]; simpl; [ring|]. rewrite IH. unfold Rsqr. ring. Qed.
Lemma Sn_length l : Sn l = INR (length l).
Proof. unfold Sn, rsum. induction l as [|p l IH]; [reflexivity|]. cbn [map fold_right length]. rewrite IH, S_INR. ring. Qed.
Lemma det_nz l : two_x l -> Sn l * Sxx l - Sx l * Sx l <> 0.
Proof.
  intros (p & q & Hp & Hq & N) E. pose proof (dispersion l (Sn l) (Sx l)) as HD.
  assert (rsum (map (fun p => Rsqr (Sn l * fst p - Sx l)) l) <= 0) as HZ.
  { rewrite HD. replace (Sn l * Sn l * Sxx l - 2 * Sn l * Sx l * Sx l + Sx l * Sx l * Sn l) with (Sn l * (Sn l * Sxx l - Sx l * Sx l)) by ring. rewrite E. lra. }
  pose proof (rsum_zero _ (fun x Hx => ltac:(apply in_map_iff in Hx as (r & <- & _); apply Rle_0_sqr)) HZ) as HA.
  assert (forall r, In r l -> Sn l * fst r - Sx l = 0) as HB.
  { intros r Hr. apply Rsqr_0_uniq. apply HA. apply in_map_iff. eauto. }
  pose proof (HB p Hp). pose proof (HB q Hq). apply N. assert (0 < Sn l) as Hn.
  { rewrite Sn_length. destruct l as [|r l]; [destruct Hp|]. apply lt_0_INR. simpl. lia. }
  assert (Sn l * (fst p - fst q) = 0) as E2 by lra. apply Rmult_integral in E2 as [E2|E2]; lra.
Qed.
Lemma min_exists l : two_x l -> exists a b, forall u v, sse a b l <= sse u v l.
Proof.
  intros H. pose proof (det_nz l H) as HD. set (D := Sn l * Sxx l - Sx l * Sx l) in *.
  exists ((Sy l * Sxx l - Sx l * Sxy l) / D), ((Sn l * Sxy l - Sx l * Sy l) / D). intros u v.
  rewrite (sse_expand ((Sy l * Sxx l - Sx l * Sxy l) / D) ((Sn l * Sxy l - Sx l * Sy l) / D) l u v).
  replace (Sy l - (Sy l * Sxx l - Sx l * Sxy l) / D * Sn l - (Sn l * Sxy l - Sx l * Sy l) / D * Sx l) with 0.
  2:{ unfold D in *. field. exact HD. }
  replace (Sxy l - (Sy l * Sxx l - Sx l * Sxy l) / D * Sx l - (Sn l * Sxy l - Sx l * Sy l) / D * Sxx l) with 0.
  2:{ unfold D in *. field. exact HD. }
  assert (0 <= rsum (map (fun p => Rsqr ((u - (Sy l * Sxx l - Sx l * Sxy l) / D) + (v - (Sn l * Sxy l - Sx l * Sy l) / D) * fst p)) l)).
  { apply rsum_nonneg. intros x Hx. apply in_map_iff in Hx as (p & <- & _). apply Rle_0_sqr. }
  lra.
Qed.

(** ** Logarithms *)
Lemma ln10_pos : 0 < ln 10.
Proof. rewrite <- ln_1. apply ln_increasing; lra. Qed.
Lemma log10_mult x y : 0 < x -> 0 < y -> log10 (x * y) = log10 x + log10 y.
Proof. intros Hx Hy. unfold log10. rewrite ln_mult by assumption. pose proof ln10_pos. field. lra. Qed.
Lemma log10_div x y : 0 < x -> 0 < y -> log10 (x / y) = log10 x - log10 y.
Proof. intros Hx Hy. unfold Rdiv at 1. rewrite log10_mult by (try assumption; apply Rinv_0_lt_compat; assumption). unfold log10. rewrite ln_Rinv by assumption. pose proof ln10_pos. field. lra. Qed.
Lemma log10_power x k : log10 (Rpower x k) = k * log10 x.
Proof. unfold log10, Rpower. rewrite ln_exp. pose proof ln10_pos. field. lra. Qed.
Lemma log10_inj x y : 0 < x -> 0 < y -> log10 x = log10 y -> x = y.
Proof.
  intros Hx Hy H. unfold log10 in H. apply ln_inv; [assumption..|]. pose proof ln10_pos. apply (f_equal (fun z => z * ln 10)) in H. unfold Rdiv in H.
  rewrite !Rmult_assoc, Rinv_l in H by lra. lra.
Qed.
Lemma pow10_log x : 0 < x -> Rpower 10 (log10 x) = x.
Proof. intros H. unfold Rpower, log10. pose proof ln10_pos. replace (ln x / ln 10 * ln 10) with (ln x) by (field; lra). apply exp_ln. exact H. Qed.
Lemma log_pow10 x : log10 (Rpower 10 x) = x.
Proof. rewrite log10_power. unfold log10. pose proof ln10_pos. field. lra. Qed.
Lemma power_pos x k : 0 < Rpower x k.
Proof. apply exp_pos. Qed.
