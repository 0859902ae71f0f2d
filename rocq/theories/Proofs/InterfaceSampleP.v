(** Areas and lengths of interfaces. *)
From Coq Require Import Reals Lra.
From Verif.Base Require Import QcX Res Np ListX.
From Verif.Model Require Import Collect InterfaceSample.
From Verif.Spec Require Import PolygonSpec LengthSpec.
From Verif.Proofs Require Import CollectP CollectRunP.
From Coq Require Import Lra.
Local Open Scope list_scope.

Lemma close_self a : close a a = true. Proof. exact (close_refl a). Qed.
Lemma allclose_self l : allclose_bc l l = Ok true.
Proof. unfold allclose_bc. rewrite Nat.eqb_refl. f_equal. induction l as [|a l IH]; [reflexivity|]. simpl. rewrite close_self. exact IH. Qed.

Definition half : Qc := Q2Qc (1 # 2).
Fixpoint trapezoids (ls : layers) : Qc :=
  match ls with
  | p :: ((q :: _) as ls') => (height q - height p) * (half * ((right p - left p) + (right q - left q))) + trapezoids ls'
  | _ => 0
  end.

Lemma bases_eq ls : exists b, trapezoid_bases (map left ls) (map right ls) = Ok b /\
  qsum (map (fun p => fst p * snd p) (combine (qdiff (map height ls)) b)) = trapezoids ls.
Proof.
  induction ls as [|p [|q ls] IH].
  - exists []. split; reflexivity.
  - exists []. split; reflexivity.
  - destruct IH as (b & E & F). eexists. split.
    + cbn [map trapezoid_bases] in *. rewrite E. cbn [rbind]. reflexivity.
    + cbn [map qdiff combine] in *. rewrite qsum_cons. cbn [fst snd]. rewrite F. reflexivity.
Qed.

Lemma half_firstn {A} (l r : list A) n : length l = n -> length r = n -> Nat.div (length (l ++ r)) 2 = n /\ firstn n (l ++ r) = l /\ skipn n (l ++ r) = r.
Proof.
  intros <- Hr. rewrite app_length, Hr. split; [replace (length l + length l)%nat with (length l * 2)%nat by lia; apply Nat.div_mul; lia|].
  split; [rewrite firstn_app, Nat.sub_diag, firstn_all; simpl; apply app_nil_r|rewrite skipn_app, Nat.sub_diag, skipn_all; reflexivity].
Qed.
Lemma area_eq ls : get_area_of_interface (map fst (polygon ls)) (map snd (polygon ls)) = Ok (trapezoids ls).
Proof.
  unfold get_area_of_interface, polygon. rewrite !map_app, !map_rev, !map_map. cbn [fst snd].
  destruct (half_firstn (map left ls) (rev (map right ls)) (length ls)) as (E1 & E2 & E3); [apply map_length|rewrite rev_length; apply map_length|].
  destruct (half_firstn (map height ls) (rev (map height ls)) (length ls)) as (_ & F2 & F3); [apply map_length|rewrite rev_length; apply map_length|].
  change (fun x => left x) with left. change (fun x => right x) with right. change (fun x => height x) with height.
  rewrite E1, E2, E3, F2, F3, !rev_involutive, allclose_self. cbn [rbind].
  destruct (bases_eq ls) as (b & -> & F). cbn [rbind]. rewrite F. reflexivity.
Qed.

Lemma path_sum_app l p m : path_sum (l ++ p :: m) = path_sum (l ++ [p]) + path_sum (p :: m).
Proof.
  induction l as [|a [|b l] IH].
  - cbn [app path_sum]. destruct m; ring.
  - change (path_sum ([a] ++ p :: m)) with (cross a p + path_sum (p :: m)). cbn [app path_sum]. ring.
  - change (path_sum ((a :: b :: l) ++ p :: m)) with (cross a b + path_sum ((b :: l) ++ p :: m)). rewrite IH.
    change (path_sum ((a :: b :: l) ++ [p])) with (cross a b + path_sum ((b :: l) ++ [p])). ring.
Qed.
Lemma last_app {A} (l : list A) a d : last (l ++ [a]) d = a.
Proof. induction l as [|b l IH]; [reflexivity|]. cbn [app last]. destruct (l ++ [a]) eqn:E; [destruct l; discriminate|exact IH]. Qed.

Lemma polygon_cons p ls : polygon (p :: ls) = (left p, height p) :: polygon ls ++ [(right p, height p)].
Proof. unfold polygon. cbn [map rev app]. rewrite <- app_assoc. reflexivity. Qed.
Lemma polygon_area ls : twice_area (polygon ls) = - ((1 + 1) * trapezoids ls).
Proof.
  induction ls as [|p [|q ls] IH].
  - unfold twice_area, cross. cbn [polygon map rev app path_sum last hd fst snd trapezoids]. ring.
  - unfold twice_area, polygon, cross. cbn [map rev app path_sum last hd fst snd trapezoids]. unfold cross. cbn [fst snd]. ring.
  - set (a := (left p, height p)). set (b := (right p, height p)). set (a' := (left q, height q)). set (b' := (right q, height q)).
    rewrite polygon_cons. fold a b.
    assert (exists m, polygon (q :: ls) = a' :: m /\ exists m', polygon (q :: ls) = m' ++ [b']) as (m & Em & m' & Em').
    { rewrite polygon_cons. eexists. split; [reflexivity|]. exists (a' :: polygon ls). reflexivity. }
    unfold twice_area in IH |- *.
    assert (path_sum (a :: polygon (q :: ls) ++ [b]) = cross a a' + path_sum (polygon (q :: ls)) + cross b' b) as ->.
    { rewrite Em. cbn [app]. change (path_sum (a :: a' :: m ++ [b])) with (cross a a' + path_sum ((a' :: m) ++ [b])). rewrite <- Em, Em'.
      rewrite <- app_assoc. cbn [app]. rewrite path_sum_app. cbn [path_sum]. ring. }
    change (a :: polygon (q :: ls) ++ [b]) with ((a :: polygon (q :: ls)) ++ [b]). rewrite last_app. change (hd (0, 0) ((a :: polygon (q :: ls)) ++ [b])) with a.
    rewrite Em' in IH at 2. rewrite last_app in IH. rewrite Em in IH at 2. cbn [hd] in IH.
    assert (path_sum (polygon (q :: ls)) = - ((1 + 1) * trapezoids (q :: ls)) - cross b' a') as -> by (rewrite <- IH; ring).
    change (trapezoids (p :: q :: ls)) with ((height q - height p) * (half * (right p - left p + (right q - left q))) + trapezoids (q :: ls)).
    generalize (trapezoids (q :: ls)). intros t. unfold cross, a, b, a', b', half. cbn [fst snd].
    replace ((1 + 1) * ((height q - height p) * (Q2Qc (1 # 2) * (right p - left p + (right q - left q))) + t))
      with ((height q - height p) * (right p - left p + (right q - left q)) + (1 + 1) * t).
    + generalize (height q) (height p) (left p) (right p) (left q) (right q). intros. ring.
    + assert ((1 + 1) * Q2Qc (1 # 2) = 1) as H by (apply Qc_is_canon; reflexivity).
      transitivity ((height q - height p) * (((1 + 1) * Q2Qc (1 # 2)) * (right p - left p + (right q - left q))) + (1 + 1) * t); [rewrite H; ring|ring].
Qed.

Lemma trapezoids_nonneg ls : rising ls -> Forall (fun p => left p <= right p) ls -> 0 <= trapezoids ls.
Proof.
  induction ls as [|p [|q ls] IH]; intros H HF; try apply Qcle_refl. destruct H as [H1 H2].
  inversion HF as [|? ? F1 F2]; subst. specialize (IH H2 F2). inversion F2 as [|? ? F3 F4]; subst.
  change (0 <= (height q - height p) * (half * (right p - left p + (right q - left q))) + trapezoids (q :: ls)).
  assert (0 <= (height q - height p) * (half * (right p - left p + (right q - left q)))).
  { apply qmult_nonneg; [qlra'|]. unfold half. apply qmult_nonneg; [|qlra']. apply qle_true. reflexivity. }
  generalize dependent (trapezoids (q :: ls)). generalize dependent ((height q - height p) * (half * (right p - left p + (right q - left q)))). intros; qlra'.
Qed.
(** a new position for each layer: only the width and the height differences count *)
Lemma trapezoids_slide ls (s : Qc * Qc * Qc -> Qc) dy :
  trapezoids (map (fun p => (height p + dy, left p + s p, right p + s p)) ls) = trapezoids ls.
Proof.
  induction ls as [|p [|q ls] IH]; try reflexivity. cbn [map trapezoids] in *. rewrite IH. unfold height, left, right. cbn [fst snd]. ring.
Qed.
Lemma trapezoids_app ls p ms : trapezoids (ls ++ p :: ms) = trapezoids (ls ++ [p]) + trapezoids (p :: ms).
Proof.
  induction ls as [|a [|b ls] IH].
  - cbn [app trapezoids]. destruct ms; ring.
  - change (trapezoids ([a] ++ p :: ms)) with ((height p - height a) * (half * ((right a - left a) + (right p - left p))) + trapezoids (p :: ms)). cbn [app trapezoids]. ring.
  - change (trapezoids ((a :: b :: ls) ++ p :: ms)) with ((height b - height a) * (half * ((right a - left a) + (right b - left b))) + trapezoids ((b :: ls) ++ p :: ms)). rewrite IH.
    change (trapezoids ((a :: b :: ls) ++ [p])) with ((height b - height a) * (half * ((right a - left a) + (right b - left b))) + trapezoids ((b :: ls) ++ [p])). ring.
Qed.

(** ** Length *)
Local Open Scope R_scope.
Lemma length_eq l : calc_length (map fst l) (map snd l) = path_length l.
Proof.
  unfold calc_length. induction l as [|p [|q l] IH]; try reflexivity.
  cbn [map rdiff combine rsum path_length] in *. rewrite IH. reflexivity.
Qed.
Lemma dist_euc_eq p q : dist p q = dist_euc (fst p) (snd p) (fst q) (snd q).
Proof. unfold dist, dist_euc, Rsqr. f_equal. ring. Qed.
Lemma dist_triangle p q r : dist p r <= dist p q + dist q r.
Proof. rewrite !dist_euc_eq. apply triangle. Qed.
Lemma dist_nonneg p q : 0 <= dist p q. Proof. apply sqrt_pos. Qed.
Lemma dist_sym p q : dist p q = dist q p. Proof. unfold dist. f_equal. ring. Qed.
Lemma dist_self p : dist p p = 0. Proof. unfold dist. replace (_ + _) with 0 by ring. apply sqrt_0. Qed.
Lemma path_nonneg l : 0 <= path_length l.
Proof. induction l as [|p [|q l] IH]; try apply Rle_refl. change (0 <= dist p q + path_length (q :: l)). pose proof (dist_nonneg p q). apply Rplus_le_le_0_compat; assumption. Qed.
Lemma path_ends p l : dist p (last l p) <= path_length (p :: l).
Proof.
  revert p. induction l as [|q l IH]; intros p; [simpl; rewrite dist_self; apply Rle_refl|].
  change (path_length (p :: q :: l)) with (dist p q + path_length (q :: l)).
  assert (last (q :: l) p = last l q) as ->. { destruct l as [|r l]; [reflexivity|]. cbn [last]. clear. revert p q r; induction l as [|s l IH]; intros; [reflexivity|]. cbn [last]. apply (IH p q s). }
  pose proof (dist_triangle p q (last l q)). specialize (IH q). eapply Rle_trans; [eassumption|]. apply Rplus_le_compat_l. exact IH.
Qed.
Lemma path_map (f : R * R -> R * R) k : (forall p q, dist (f p) (f q) = k * dist p q) -> forall l, path_length (map f l) = k * path_length l.
Proof.
  intros H l. induction l as [|p [|q l] IH]; try (simpl; ring). cbn [map path_length] in *. rewrite H, IH. ring.
Qed.
Lemma dist_scale k p q : dist (k * fst p, k * snd p) (k * fst q, k * snd q) = Rabs k * dist p q.
Proof.
  unfold dist. cbn [fst snd]. rewrite <- sqrt_Rsqr_abs, <- sqrt_mult_alt by apply Rle_0_sqr. f_equal. unfold Rsqr. ring.
Qed.
Lemma path_app l p m : path_length (l ++ p :: m) = path_length (l ++ [p]) + path_length (p :: m).
Proof.
  induction l as [|a [|b l] IH].
  - simpl. destruct m; ring.
  - change (path_length ([a] ++ p :: m)) with (dist a p + path_length (p :: m)). simpl. ring.
  - change (path_length ((a :: b :: l) ++ p :: m)) with (dist a b + path_length ((b :: l) ++ p :: m)). rewrite IH.
    change (path_length ((a :: b :: l) ++ [p])) with (dist a b + path_length ((b :: l) ++ [p])). ring.
Qed.
Lemma path_rev l : path_length (rev l) = path_length l.
Proof.
  induction l as [|p [|q l] IH]; try reflexivity.
  change (rev (p :: q :: l)) with ((rev l ++ [q]) ++ [p]). rewrite <- app_assoc. cbn [app]. rewrite path_app. change (rev l ++ [q]) with (rev (q :: l)).
  rewrite IH. change (path_length (p :: q :: l)) with (dist p q + path_length (q :: l)). simpl. rewrite (dist_sym q p). ring.
Qed.
Lemma path_straight p q (ts : list R) : (forall i j, (i <= j)%nat -> (j < length ts)%nat -> nth i ts 0 <= nth j ts 0) ->
  path_length (map (fun t => (fst p + t * (fst q - fst p), snd p + t * (snd q - snd p))) ts) = (last ts (hd 0 ts) - hd 0 ts) * dist p q.
Proof.
  set (f := fun t => (fst p + t * (fst q - fst p), snd p + t * (snd q - snd p))).
  assert (forall a b, a <= b -> dist (f a) (f b) = (b - a) * dist p q) as D.
  { intros a b H. rewrite <- (Rabs_pos_eq (b - a)) by lra. unfold dist, f. cbn [fst snd].
    rewrite <- sqrt_Rsqr_abs, <- sqrt_mult_alt by apply Rle_0_sqr. f_equal. unfold Rsqr. ring. }
  assert (forall ts : list R, forall d e, ts <> [] -> last ts d = last ts e) as LI.
  { clear. induction ts as [|a [|b ts] IH]; intros; [congruence|reflexivity|]. cbn [last]. apply (IH d e). discriminate. }
  induction ts as [|a [|b ts] IH]; intros H; try (simpl; ring).
  cbn [map path_length] in *. rewrite IH.
  - rewrite D by (apply (H 0%nat 1%nat); simpl; lia). cbn [hd]. change (last (a :: b :: ts) a) with (last (b :: ts) a).
    rewrite (LI (b :: ts) b a) by discriminate. ring.
  - intros i j Hij Hj. apply (H (S i) (S j)); simpl in *; lia.
Qed.
