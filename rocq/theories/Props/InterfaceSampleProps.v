(** Properties C36, C37: area and length of interfaces. *)
From Coq Require Import Reals.
From Verif.Base Require Import QcX Res Np ListX.
From Verif.Model Require Import Collect InterfaceSample.
From Verif.Spec Require Import PolygonSpec LengthSpec CollectSpec SpreadingSpec.
From Verif.Proofs Require Import CollectP CollectRunP InterfaceSampleP.
From Coq Require Import Lra.
Local Open Scope list_scope.

(** ** C36: the area is that of the polygon with the points of the interface as corners. *)
Definition area_of (pts : list (Qc * Qc)) : res Qc := get_area_of_interface (map fst pts) (map snd pts).
Theorem C36_polygon_area : forall ls : layers, exists a, area_of (polygon ls) = Ok a /\ (1 + 1) * a = - twice_area (polygon ls).
Proof. intros ls. exists (trapezoids ls). split; [apply area_eq|]. rewrite polygon_area. ring. Qed.
Print Assumptions C36_polygon_area.
Theorem C36_nonneg : forall ls a, rising ls -> Forall (fun p => left p <= right p) ls -> area_of (polygon ls) = Ok a -> 0 <= a.
Proof. intros ls a H HF E. unfold area_of in E. rewrite area_eq in E. injection E as <-. apply trapezoids_nonneg; assumption. Qed.
Print Assumptions C36_nonneg.
(** Raising the interface and sliding each of its layers sideways does not change the area. *)
Theorem C36_invariant : forall ls (slide : Qc * Qc * Qc -> Qc) up,
  area_of (polygon (map (fun p => (height p + up, left p + slide p, right p + slide p)) ls)) = area_of (polygon ls).
Proof. intros. unfold area_of. rewrite !area_eq, trapezoids_slide. reflexivity. Qed.
Print Assumptions C36_invariant.
(** Cut at a layer, the areas of the two parts add up. *)
Theorem C36_additive : forall ls p ms a b, area_of (polygon (ls ++ [p])) = Ok a -> area_of (polygon (p :: ms)) = Ok b ->
  area_of (polygon (ls ++ p :: ms)) = Ok (a + b).
Proof. intros ls p ms a b. unfold area_of. rewrite !area_eq. intros [= <-] [= <-]. rewrite trapezoids_app. reflexivity. Qed.
Print Assumptions C36_additive.
(** Points which are not layers (left and right at different heights) have no area. *)
Theorem C36_bad_points : forall xs ys i a b n, length xs = (n + n)%nat -> length ys = (n + n)%nat -> (i < n)%nat ->
  nth_error ys i = Some a -> nth_error ys (n + n - 1 - i) = Some b ->
  Q2Qc (1 # 100000000) + Q2Qc (1 # 100000) * qabs b < qabs (a - b) -> get_area_of_interface xs ys = Err TypeErr.
Proof.
  intros xs ys i a b n Hx Hy Hi Ha Hb Hd. unfold get_area_of_interface. rewrite Hx.
  replace (n + n)%nat with (n * 2)%nat by lia. rewrite Nat.div_mul by lia. unfold allclose_bc.
  rewrite rev_length, firstn_length, skipn_length, Hy. replace (Nat.min n (n + n)) with n by lia. replace (n + n - n)%nat with n by lia.
  rewrite Nat.eqb_refl. cbn [rbind].
  match goal with |- (if ?c then _ else _) = _ => assert (c = false) as -> end; [|reflexivity].
  match goal with |- ?c = false => destruct c eqn:E end; [|reflexivity]. exfalso. rewrite forallb_forall in E.
  assert (close a b = false) as C. { unfold close, isclose. apply qle_false. exact Hd. }
  specialize (E (a, b)). cbn [fst snd] in E. rewrite C in E. discriminate E.
  apply (nth_error_In _ i). rewrite combine_nth_error. rewrite nth_error_firstn, Ha by lia.
  assert (nth_error (rev (skipn n ys)) i = Some b) as ->; [|reflexivity].
  assert (length (skipn n ys) = n) as L by (rewrite skipn_length; lia).
  replace i with (length (skipn n ys) - 1 - (n - 1 - i))%nat by lia. rewrite nth_error_rev by lia. rewrite nth_error_skipn. rewrite <- Hb. f_equal. lia.
Qed.
Print Assumptions C36_bad_points.

(** The interfaces collected from a droplet (C34, C35) are such polygons, of the area of the true ones. *)
Definition true_layers (h : Qc) (ps : list (Qc * Qc)) : layers :=
  map (fun i => (ZQ (Z.of_nat i) * h, fst (nth i ps (0, 0)), snd (nth i ps (0, 0)))) (seq 0 (length ps)).
Theorem C36_collected : forall h d ps, area_of (closed_curve h (moved d ps)) = area_of (polygon (true_layers h ps)).
Proof.
  intros h d ps.
  assert (closed_curve h (moved d ps) = polygon (map (fun p => (height p + 0, left p + d, right p + d)) (true_layers h ps))) as ->.
  2:{ apply (C36_invariant (true_layers h ps) (fun _ => d) 0). }
  unfold closed_curve, polygon, true_layers. rewrite !map_map. unfold height, left, right. cbn [fst snd].
  assert (length (moved d ps) = length ps) as -> by apply map_length.
  assert (forall i, In i (seq 0 (length ps)) -> nth i (moved d ps) (0, 0) = (fst (nth i ps (0, 0)) + d, snd (nth i ps (0, 0)) + d)) as N.
  { intros i Hi. apply in_seq in Hi. unfold moved. rewrite (nth_indep _ (0, 0) (fst (0, 0) + d, snd (0, 0) + d)) by (rewrite map_length; lia).
    rewrite (map_nth (fun p => (fst p + d, snd p + d))). reflexivity. }
  f_equal; [|f_equal]; apply map_ext_in; intros i Hi; rewrite (N i Hi); cbn [fst snd]; f_equal; ring.
Qed.
Print Assumptions C36_collected.

(** The rows for a list of readable files: times are i * dt, also after a file left out. *)
Theorem C36_rows : forall dt files rows, sample_areas files dt = Ok rows ->
  forall t a, In (t, a) rows <-> exists i xs ys, nth_error files i = Some (Some (xs, ys)) /\ t = NQ i * dt /\ get_area_of_interface xs ys = Ok a.
Proof.
  assert (forall dt files k rows, sample_loop get_area_of_interface files k dt = Ok rows ->
    forall t a, In (t, a) rows <-> exists i xs ys, nth_error files i = Some (Some (xs, ys)) /\ t = NQ (k + i) * dt /\ get_area_of_interface xs ys = Ok a) as G.
  { intros dt. induction files as [|[[xs ys]|] files IH]; intros k rows H t a; simpl in H; [|idtac|discriminate].
    - injection H as <-. split; [intros []|]. intros (i & ? & ? & Hi & _). destruct i; discriminate.
    - destruct (get_area_of_interface xs ys) as [v|e] eqn:E.
      + destruct (sample_loop get_area_of_interface files (S k) dt) as [rest|] eqn:R; [|discriminate]. simpl in H. injection H as <-.
        specialize (IH (S k) rest R t a). cbn [In]. rewrite IH. split.
        * intros [[= <- <-]|(i & xs' & ys' & Hi & -> & Ha)]; [exists 0%nat, xs, ys; rewrite Nat.add_0_r; auto|].
          exists (S i), xs', ys'. replace (k + S i)%nat with (S k + i)%nat by lia. auto.
        * intros ([|i] & xs' & ys' & Hi & -> & Ha); simpl in Hi.
          -- injection Hi as <- <-. rewrite Ha in E. injection E as ->. rewrite Nat.add_0_r. auto.
          -- right. exists i, xs', ys'. replace (S k + i)%nat with (k + S i)%nat by lia. auto.
      + destruct e; try discriminate. specialize (IH (S k) rows H t a). rewrite IH. split.
        * intros (i & xs' & ys' & Hi & -> & Ha). exists (S i), xs', ys'. replace (k + S i)%nat with (S k + i)%nat by lia. auto.
        * intros ([|i] & xs' & ys' & Hi & -> & Ha); simpl in Hi.
          -- injection Hi as <- <-. congruence.
          -- exists i, xs', ys'. replace (S k + i)%nat with (k + S i)%nat by lia. auto. }
  intros dt files rows H. exact (G dt files 0%nat rows H).
Qed.
Print Assumptions C36_rows.

Definition tri : layers := map (fun p => (ZQ (fst (fst p)), ZQ (snd (fst p)), ZQ (snd p))) [(0, 0, 6); (1, 1, 4); (3, 2, 2)]%Z.
Example C36_ex : rising tri /\ Forall (fun p => left p <= right p) tri /\ area_of (polygon tri) = Ok (Q2Qc (15 # 2)).
Proof.
  split; [|split].
  - repeat split; apply qle_true; vm_compute; reflexivity.
  - repeat constructor; apply qle_true; vm_compute; reflexivity.
  - vm_compute. reflexivity.
Qed.
Example C36_ex_rows : exists r, sample_areas [Some (map fst (polygon tri), map snd (polygon tri)); Some ([0; 1], [0; 1]); Some ([0; 1], [0; 0])] 1 = Ok r
  /\ length r = 2%nat /\ nth 1 r (0, 0) = (NQ 2 * 1, 0).
Proof. eexists. split; [vm_compute; reflexivity|]. split; [reflexivity|]. reflexivity. Qed.

(** ** C37: length of the interface (over the reals) *)
Local Open Scope R_scope.
Definition length_of (pts : list (R * R)) : R := calc_length (map fst pts) (map snd pts).
Theorem C37_sum_of_segments : forall pts, length_of pts = path_length pts.
Proof. exact length_eq. Qed.
Print Assumptions C37_sum_of_segments.
Theorem C37_nonneg : forall xs ys, 0 <= calc_length xs ys.
Proof.
  intros. unfold calc_length. induction (combine (rdiff xs) (rdiff ys)) as [|p l IH]; simpl; [apply Rle_refl|].
  apply Rplus_le_le_0_compat; [apply sqrt_pos|exact IH].
Qed.
Print Assumptions C37_nonneg.
Theorem C37_at_least_the_distance : forall p l, dist p (last l p) <= length_of (p :: l).
Proof. intros. unfold length_of. rewrite length_eq. apply path_ends. Qed.
Print Assumptions C37_at_least_the_distance.
Theorem C37_translation : forall dx dy l, length_of (map (fun p => (fst p + dx, snd p + dy)) l) = length_of l.
Proof.
  intros. unfold length_of. rewrite !length_eq. rewrite (path_map _ 1); [ring|]. intros p q. unfold dist. cbn [fst snd].
  rewrite Rmult_1_l. f_equal. ring.
Qed.
Print Assumptions C37_translation.
Theorem C37_reversal : forall l, length_of (rev l) = length_of l.
Proof. intros. unfold length_of. rewrite !length_eq. apply path_rev. Qed.
Print Assumptions C37_reversal.
Theorem C37_scaling : forall k l, length_of (map (fun p => (k * fst p, k * snd p)) l) = Rabs k * length_of l.
Proof. intros. unfold length_of. rewrite !length_eq. apply path_map. intros. apply dist_scale. Qed.
Print Assumptions C37_scaling.
Theorem C37_additive : forall l p m, length_of (l ++ p :: m) = length_of (l ++ [p]) + length_of (p :: m).
Proof. intros. unfold length_of. rewrite !length_eq. apply path_app. Qed.
Print Assumptions C37_additive.
(** Points along a segment, in order, have the distance of the first and last as length. *)
Theorem C37_straight : forall p q ts, (forall i j, (i <= j)%nat -> (j < List.length ts)%nat -> nth i ts 0 <= nth j ts 0) ->
  length_of (map (fun t => (fst p + t * (fst q - fst p), snd p + t * (snd q - snd p))) ts) = (last ts (hd 0 ts) - hd 0 ts) * dist p q.
Proof. intros. unfold length_of. rewrite length_eq. apply path_straight. assumption. Qed.
Print Assumptions C37_straight.
Example C37_ex : length_of [(0, 0); (3, 4); (3, 5)] = 6.
Proof.
  rewrite C37_sum_of_segments. cbn [path_length]. unfold dist. cbn [fst snd].
  replace ((3 - 0) * (3 - 0) + (4 - 0) * (4 - 0)) with (5 * 5) by ring. replace ((3 - 3) * (3 - 3) + (5 - 4) * (5 - 4)) with (1 * 1) by ring.
  rewrite !sqrt_square by lra. ring.
Qed.
