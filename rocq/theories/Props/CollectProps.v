(** Properties C33-C35: collected interfaces. *)
From Verif.Base Require Import QcX Res Np Sort.
From Verif.Model Require Import Bins Flow Interface Spreading Collect.
From Verif.Spec Require Import SpreadingSpec CollectSpec.
From Verif.Proofs Require Import SpreadingP CollectP CollectRunP.
Local Open Scope list_scope.

(** The interface found in a map: per layer the records at its left and right end. *)
Definition interface_of (V : bin -> Qc) (data : list bin) (fi : finfo) (cutoff radius : option Qc) (nb : Z) (lims : option Qc * option Qc) : res (list (nat * nat)) :=
  get_interface V data fi (mkIopts cutoff radius nb true lims).
Definition x_at (data : list bin) (i : nat) : Qc := bX (nth i data bin0).
Definition y_at (data : list bin) (i : nat) : Qc := bY (nth i data bin0).

(** ** C33: the array runs up the left edge and down the right one; every layer is there twice,
    its x moved by whole boxes and one common shift, its y measured from the first layer. *)
Theorem C33_array : forall V data fi cutoff radius nb lims old o a st,
  get_interface_coordinates V data fi cutoff radius nb lims old o = Ok (a, st) ->
  exists pairs box by_ cx, interface_of V data fi cutoff radius nb lims = Ok pairs /\
    size fi = Some (box, by_) /\ (2 <= length pairs)%nat /\ length a = (length pairs + length pairs)%nat /\
    forall i il ir, nth_error pairs i = Some (il, ir) -> exists kl kr : Z,
      nth_error a i = Some (x_at data il + ZQ kl * box - cx, y_at data il - y_at data (fst (nth 0 pairs (0, 0)%nat))) /\
      nth_error a (length a - 1 - i) = Some (x_at data ir + ZQ kr * box - cx, y_at data il - y_at data (fst (nth 0 pairs (0, 0)%nat))).
Proof. exact array_of_map. Qed.
Print Assumptions C33_array.

(** There is no array for a map with no interface, or with a single layer. *)
Theorem C33_no_interface : forall V data fi cutoff radius nb lims old o, interface_of V data fi cutoff radius nb lims = Ok [] ->
  get_interface_coordinates V data fi cutoff radius nb lims old o = Err ValueErr.
Proof. intros V data fi cutoff radius nb lims old o H. unfold get_interface_coordinates, interface_of in *. rewrite H. reflexivity. Qed.
Print Assumptions C33_no_interface.
Theorem C33_single_layer : forall V data fi cutoff radius nb lims old o p box, interface_of V data fi cutoff radius nb lims = Ok [p] ->
  size fi = Some box -> get_interface_coordinates V data fi cutoff radius nb lims old o = Err IndexErr.
Proof. intros V data fi cutoff radius nb lims old o p [bx by_] H Hs. unfold get_interface_coordinates, interface_of in *. rewrite H. cbn [rbind]. rewrite Hs. reflexivity. Qed.
Print Assumptions C33_single_layer.

(** ** C34 *)
(** The value carried to a layer of the new frame is that of the nearest layer of the frame before. *)
Theorem C34_nearest_layer : forall y0 h b b' n m (xs : list pinfo),
  0 < h -> (1 <= n)%nat -> (1 <= m)%nat -> length xs = n ->
  Q2Qc (1 # 100000000) + Q2Qc (1 # 100000) * qabs (y0 + ZQ b' * h) < h ->
  exists t, transfer_values (Some (map Some xs, mkY (y0 + ZQ b * h) (y0 + ZQ (b + Z.of_nat n - 1) * h) h n))
                            (mkY (y0 + ZQ b' * h) (y0 + ZQ (b' + Z.of_nat m - 1) * h) h m) = Ok t /\
    length (fill_pbc t) = m /\
    forall i, (i < m)%nat -> nth_error (fill_pbc t) i =
      option_map Some (nth_error xs (Z.to_nat (nearest b n (b' + Z.of_nat i) - b))).
Proof. exact carried. Qed.
Print Assumptions C34_nearest_layer.
(** [nearest] is the nearest of the layers, itself if it is one of them. *)
Theorem C34_nearest_is_nearest : forall b n z, (1 <= n)%nat ->
  (b <= nearest b n z < b + Z.of_nat n)%Z /\ ((b <= z < b + Z.of_nat n)%Z -> nearest b n z = z) /\
  forall z', (b <= z' < b + Z.of_nat n)%Z -> (Z.abs (z - nearest b n z) <= Z.abs (z - z'))%Z.
Proof. intros b n z Hn. destruct (nearest_cases b n z Hn) as [(H & ->) | [(H & ->) | (H & ->)]]; repeat split; intros; lia. Qed.
Print Assumptions C34_nearest_is_nearest.

(** The spacing of layers must be the same. *)
Theorem C34_different_spacing : forall {A} (xs : list (option A)) o n,
  Q2Qc (1 # 100000000) + Q2Qc (1 # 100000) * qabs (dy n) < qabs (dy o - dy n) ->
  transfer_values (Some (xs, o)) n = Err ValueErr.
Proof.
  intros A xs o n H. unfold transfer_values.
  assert (close (dy o) (dy n) = false) as E. { unfold close, isclose. apply qle_false. exact H. }
  rewrite E. rewrite !Bool.andb_false_r. reflexivity.
Qed.
Print Assumptions C34_different_spacing.

(** A map shows the layers of the truth [f]. *)
Definition map_shows (V : bin -> Qc) (cutoff radius : option Qc) (nb : Z) (lims : option Qc * option Qc) (box y0 h : Qc) (m : list bin * finfo) (f : truth) : Prop :=
  (exists by_, size (snd m) = Some (box, by_)) /\
  exists pairs, interface_of V (fst m) (snd m) cutoff radius nb lims = Ok pairs /\
    shows_layers box y0 h (map (fun p => (y_at (fst m) (fst p), x_at (fst m) (fst p), x_at (fst m) (snd p))) pairs) f.
(** At least two layers, narrower than the box, [h] apart by more than the tolerance of np.isclose. *)
Definition droplet (box y0 h : Qc) (f : truth) : Prop :=
  (2 <= length (snd f))%nat /\ Forall (valid_pos box) (snd f) /\
  Q2Qc (1 # 100000000) + Q2Qc (1 # 100000) * qabs (y0 + ZQ (fst f) * h) < h.
(** In the first frame the left edges of all layers are in the same box. *)
Definition starts_in_a_box (box : Qc) (frames : list truth) : Prop :=
  match frames with f :: _ => exists k, forall p, In p (snd f) -> in_box box (fst p) k | [] => True end.

Lemma shown_pairs V cutoff radius nb lims o box y0 h maps frames :
  o <> Com -> Forall2 (map_shows V cutoff radius nb lims box y0 h) maps frames ->
  Forall2 (shown V cutoff radius nb lims o box y0 h) maps (map (fun f => (f, 0)) frames).
Proof. intros Ho H. induction H as [|m f maps frames [H1 H2] H IH]; simpl; constructor; [|exact IH]. repeat split; try assumption. intros; contradiction. Qed.
Lemma map_fst_pair {A B} (b : B) (l : list A) : map fst (map (fun f => (f, b)) l) = l.
Proof. induction l as [|x l IH]; simpl; [reflexivity|]. f_equal. exact IH. Qed.
Lemma run_frames V cutoff radius nb lims o box y0 h maps frames :
  o <> Com -> 0 < box -> 0 < h -> Forall2 (map_shows V cutoff radius nb lims box y0 h) maps frames ->
  Forall (droplet box y0 h) frames -> starts_in_a_box box frames -> frame_steps box frames ->
  exists c, collect_interfaces V maps cutoff radius nb lims None o = Ok (map (fun f => final o box h c (f, 0)) frames).
Proof.
  intros Ho Hb Hh HF HD HS HC.
  assert (exists k, match map (fun f : truth => (f, 0)) frames with f :: _ => forall q, In q (snd (fst f)) -> in_box box (fst q) k | [] => True end) as (k & Hk).
  { destruct frames as [|f fs]; [exists 0%Z; exact I|]. destruct HS as (k & Hk). exists k. exact Hk. }
  exists (- k)%Z. rewrite (run_from V cutoff radius nb lims o box y0 h (- k) Hb Hh maps (map (fun f => (f, 0)) frames) None (0%Z, [])).
  - rewrite map_map. reflexivity.
  - apply shown_pairs; assumption.
  - clear - HD. induction HD as [|f fs H HD IH]; simpl; constructor; [exact H|exact IH].
  - exists k. split; [reflexivity|exact Hk].
  - simpl. rewrite map_fst_pair. exact HC.
Qed.

(** Without recentring every layer of every frame is at its true position, all by the same
    number of boxes. *)
Theorem C34_continuous_partial : forall V cutoff radius nb lims box y0 h maps frames,
  0 < box -> 0 < h -> Forall2 (map_shows V cutoff radius nb lims box y0 h) maps frames ->
  Forall (droplet box y0 h) frames -> starts_in_a_box box frames -> frame_steps box frames ->
  exists c : Z, collect_interfaces V maps cutoff radius nb lims None OtherOption =
    Ok (map (fun f => closed_curve h (moved (ZQ c * box) (snd f))) frames).
Proof.
  intros V cutoff radius nb lims box y0 h maps frames Hb Hh HF HD HS HC.
  destruct (run_frames V cutoff radius nb lims OtherOption box y0 h maps frames) as (c & Hc); auto; [discriminate|].
  exists c. rewrite Hc. f_equal. apply map_ext. intros f. unfold final. cbn [fst snd centre].
  f_equal. unfold moved. rewrite map_map. apply map_ext. intros p. simpl. f_equal; ring.
Qed.
Print Assumptions C34_continuous_partial.

(** ** C35 *)
(** Recentring moves all points by the same amount. *)
Theorem C35_rigid : forall o com a a', recenter o com a = Ok a' ->
  exists dx dy, a' = map (fun p => (fst p - dx, snd p - dy)) a.
Proof. intros o com a a' H. destruct (recenter_rigid o com a a' H) as (cx & E). eauto. Qed.
Print Assumptions C35_rigid.
(** 'zero': the two lowest points are at -s and s; 'com': the x of the centre of mass of the
    map is subtracted, measured from which the centre of mass is 0; neither: x stays. *)
Theorem C35_zero : forall com a a', recenter Zero com a = Ok a' -> a <> [] ->
  fst (nth 0 a' (0, 0)) = - fst (nth (length a' - 1) a' (0, 0)).
Proof.
  intros com a a' H Hne. unfold recenter in H. cbn [rbind] in H. injection H as <-. rewrite map_length.
  destruct a as [|p a]; [contradiction|].
  set (c := qmean _). set (y := snd (nth 0 (p :: a) (0, 0))). set (g := fun p : Qc * Qc => (fst p - c, snd p - y)).
  rewrite !(nth_indep (map g (p :: a)) (0, 0) (g (0, 0))) by (rewrite map_length; simpl; lia). rewrite !map_nth. unfold g. cbn [fst].
  unfold c. unfold qmean. set (u := fst (nth 0 (p :: a) (0, 0))). set (v := fst (nth (length (p :: a) - 1) (p :: a) (0, 0))).
  clearbody u v. change (qsum [u; v]) with (u + (v + 0)). replace (NQ (length [u; v])) with (1 + 1) by (apply Qc_is_canon; reflexivity).
  field. apply (qpos_nz (1 + 1)); apply qlt_true; reflexivity.
Qed.
Print Assumptions C35_zero.
Theorem C35_com_partial : forall V data fi cutoff radius nb lims old a st,
  get_interface_coordinates V data fi cutoff radius nb lims old Com = Ok (a, st) ->
  exists a0 c, get_interface_coordinates V data fi cutoff radius nb lims old OtherOption = Ok (a0, st) /\
    a = map (fun p => (fst p - c, snd p)) a0 /\ qsum (map V data) <> 0 /\
    c = qsum (map (fun b => bX b * V b) data) / qsum (map V data).
Proof.
  intros V data fi cutoff radius nb lims old a st H. unfold get_interface_coordinates in *.
  destruct (get_interface V data fi _) as [pairs|]; [|discriminate]. cbn [rbind] in *.
  destruct pairs as [|p0 pairs]; [discriminate|]. destruct (size fi) as [[box by_]|]; [|discriminate]. cbn [of_option rbind] in *.
  match type of H with context [update_interface ?L box old] => destruct (update_interface L box old) as [[arr st']|]; [|discriminate] end. cbn [rbind] in *.
  unfold recenter in *. unfold np_average in *. destruct (qeq_spec (qsum (map V data)) 0) as [|Hz]; [discriminate|].
  cbn [rbind] in *. injection H as <- <-. eexists. eexists. split; [reflexivity|]. split; [rewrite map_map; apply map_ext; intros q; simpl; f_equal; ring_simplify; reflexivity|].
  split; [exact Hz|]. f_equal. f_equal. clear. induction data as [|b data IH]; simpl; [reflexivity|]. f_equal. exact IH.
Qed.
Print Assumptions C35_com_partial.
Theorem C35_com_is_centre : forall xs ms c, length xs = length ms -> np_average xs ms = Ok c ->
  np_average (map (fun x => x - c) xs) ms = Ok 0.
Proof. exact centred_mass. Qed.
Print Assumptions C35_com_is_centre.
(** Over all frames: the shape is the true one, wherever the droplet is. *)
Theorem C35_zero_frames : forall V cutoff radius nb lims box y0 h maps frames,
  0 < box -> 0 < h -> Forall2 (map_shows V cutoff radius nb lims box y0 h) maps frames ->
  Forall (droplet box y0 h) frames -> starts_in_a_box box frames -> frame_steps box frames ->
  collect_interfaces V maps cutoff radius nb lims None Zero =
    Ok (map (fun f => closed_curve h (moved (- ((fst (nth 0 (snd f) (0, 0)) + snd (nth 0 (snd f) (0, 0))) / (1 + 1))) (snd f))) frames).
Proof.
  intros V cutoff radius nb lims box y0 h maps frames Hb Hh HF HD HS HC.
  destruct (run_frames V cutoff radius nb lims Zero box y0 h maps frames) as (c & Hc); auto; [discriminate|].
  rewrite Hc. f_equal. apply map_ext_in. intros f Hf. unfold final. cbn [fst snd centre]. f_equal.
  assert (snd f <> []) as Hne. { pose proof (proj1 (Forall_forall _ _) HD f Hf) as (H2 & _). intros E. rewrite E in H2. simpl in H2. lia. }
  destruct (snd f) as [|p ps]; [contradiction|].
  change (nth 0 (moved (ZQ c * box) (p :: ps)) (0, 0)) with (fst p + ZQ c * box, snd p + ZQ c * box). cbn [nth fst snd].
  unfold moved. rewrite map_map. apply map_ext. intros q. cbn [fst snd].
  f_equal; field; apply (qpos_nz (1 + 1)); apply qlt_true; reflexivity.
Qed.
Print Assumptions C35_zero_frames.

(** ** Concrete cases *)
Definition mb (x y m : Z) : bin := mkBin (ZQ x) (ZQ y) 0 0 (ZQ m) 0 0.
Definition cells (rows : list (list Z)) : list bin :=
  concat (map (fun p => map (fun q => mb (Z.of_nat (fst q)) (Z.of_nat (fst p)) (snd q)) (combine (seq 0 (length (snd p))) (snd p)))
              (combine (seq 0 (length rows)) rows)).
Definition info_of (rows : list (list Z)) : finfo :=
  mkFinfo (Some (Z.of_nat (length (nth 0 rows [])), Z.of_nat (length rows))) (Some (0, 0)) (Some (1, 1)) None.
Definition pic (rows : list (list Z)) : list bin * finfo := (cells rows, info_of rows).
(** a droplet which grows upwards, moves right across the boundary and leaves the floor *)
Definition ex_maps : list (list bin * finfo) :=
  [pic [[0; 5; 5; 5; 0; 0]; [0; 0; 5; 5; 0; 0]; [0; 0; 0; 0; 0; 0]];
   pic [[0; 0; 0; 5; 5; 5]; [0; 0; 0; 5; 5; 0]; [0; 0; 0; 5; 5; 0]];
   pic [[0; 0; 0; 0; 0; 0]; [5; 0; 0; 0; 5; 5]; [0; 0; 0; 0; 5; 5]]]%Z.
Definition zz (l : list (Z * Z)) : list (Qc * Qc) := map (fun p => (ZQ (fst p), ZQ (snd p))) l.
Definition ex_truth : list truth :=
  [(0, zz [(1, 3); (2, 3)]); (0, zz [(3, 5); (3, 4); (3, 4)]); (1, zz [(4, 6); (4, 5)])]%Z.
Definition same (r : res (list (list (Qc * Qc)))) (l : list (list (Z * Z))) : bool :=
  match r with
  | Ok m => (Nat.eqb (length m) (length l) && forallb (fun p => qleqb (map fst (fst p)) (map fst (zz (snd p))) && qleqb (map snd (fst p)) (map snd (zz (snd p)))) (combine m l))%bool
  | Err _ => false
  end.
Example C34_ex : same (collect_interfaces bM ex_maps (Some (ZQ 4)) (Some 1) 1 (None, None) None OtherOption)
  [[(1, 0); (2, 1); (3, 1); (3, 0)]; [(3, 0); (3, 1); (3, 2); (4, 2); (4, 1); (5, 0)]; [(4, 0); (4, 1); (5, 1); (6, 0)]]%Z = true.
Proof. vm_compute. reflexivity. Qed.
Example C35_ex : same (collect_interfaces bM ex_maps (Some (ZQ 4)) (Some 1) 1 (None, None) None Zero)
  [[(-1, 0); (0, 1); (1, 1); (1, 0)]; [(-1, 0); (-1, 1); (-1, 2); (0, 2); (0, 1); (1, 0)]; [(-1, 0); (-1, 1); (0, 1); (1, 0)]]%Z = true.
Proof. vm_compute. reflexivity. Qed.

Ltac dec := solve [apply qle_true; vm_compute; reflexivity | apply qlt_true; vm_compute; reflexivity].
Lemma wraps_6 x X k : (0 <= x < 6)%Z -> (X = x + k * 6)%Z -> wraps (ZQ 6) (ZQ x) (ZQ X).
Proof.
  intros H ->. split; [change 0 with (ZQ 0); apply ZQ_le; lia|]. split; [apply ZQ_lt; lia|]. exists k. rewrite ZQ_add, ZQ_mul. reflexivity.
Qed.
Lemma in_box_6 X k : (k * 6 <= X < k * 6 + 6)%Z -> in_box (ZQ 6) (ZQ X) k.
Proof. intros H. unfold in_box. rewrite <- ZQ_mul, <- ZQ_add. split; [apply ZQ_le|apply ZQ_lt]; lia. Qed.
(** the layers of a picture, as integers *)
Definition zl (l : list (Z * Z * Z)) : list (Qc * Qc * Qc) := map (fun p => (ZQ (fst (fst p)), ZQ (snd (fst p)), ZQ (snd p))) l.
Lemma shows_z lz b tz :
  length lz = length tz ->
  (forall i y l r, nth_error lz i = Some (y, l, r) -> y = (b + Z.of_nat i)%Z /\ exists L R, nth_error tz i = Some (L, R) /\
     (0 <= l < 6)%Z /\ (0 <= r < 6)%Z /\ (exists k, L = l + k * 6)%Z /\ (exists k, R = r + k * 6)%Z) ->
  shows_layers (ZQ 6) 0 1 (zl lz) (b, zz tz).
Proof.
  intros HL H. split; [simpl; unfold zl, zz; rewrite !map_length; exact HL|].
  intros i y l r Hi. unfold zl in Hi. rewrite nth_error_map in Hi. destruct (nth_error lz i) as [[[y' l'] r']|] eqn:E; [|discriminate].
  injection Hi as <- <- <-. destruct (H _ _ _ _ E) as (-> & L & R & HT & Hl & Hr & (k & ->) & (k' & ->)). simpl. split; [ring|].
  exists (ZQ (l' + k * 6), ZQ (r' + k' * 6)). split; [unfold zz; rewrite nth_error_map, HT; reflexivity|].
  split; simpl; [apply (wraps_6 _ _ k)|apply (wraps_6 _ _ k')]; auto.
Qed.
Lemma Qc_eq a b : Qred (this a) = Qred (this b) -> a = b.
Proof. intros H. apply Qc_is_canon. rewrite <- (Qred_correct (this a)), <- (Qred_correct (this b)), H. reflexivity. Qed.
Ltac at_each i H := destruct i as [|[|[|[|i]]]]; simpl in H; try discriminate; try (destruct i; discriminate).
Ltac show_layers b ls ts :=
  split; [eexists; reflexivity|]; eexists; split; [vm_compute; reflexivity|];
  match goal with |- shows_layers _ _ _ ?L _ => replace L with (zl ls) by
    (repeat (apply (f_equal2 cons); [repeat apply (f_equal2 pair); apply Qc_eq; vm_compute; reflexivity|]); reflexivity) end;
  apply (shows_z ls b ts); [reflexivity|]; intros i y l r Hi; at_each i Hi; injection Hi as <- <- <-; (split; [reflexivity|]);
  eexists; eexists; (split; [reflexivity|]); (split; [lia|]); (split; [lia|]); split;
  first [exists 0%Z; reflexivity | exists 1%Z; reflexivity | exists (-1)%Z; reflexivity].
Example C34_ex_shows : Forall2 (map_shows bM (Some (ZQ 4)) (Some 1) 1 (None, None) (ZQ 6) 0 1) ex_maps ex_truth.
Proof.
  unfold ex_maps, ex_truth. constructor; [|constructor; [|constructor; [|constructor]]].
  - show_layers 0%Z [(0, 1, 3); (1, 2, 3)]%Z [(1, 3); (2, 3)]%Z.
  - show_layers 0%Z [(0, 3, 5); (1, 3, 4); (2, 3, 4)]%Z [(3, 5); (3, 4); (3, 4)]%Z.
  - show_layers 1%Z [(1, 4, 0); (2, 4, 5)]%Z [(4, 6); (4, 5)]%Z.
Qed.
Example C34_ex_droplet : Forall (droplet (ZQ 6) 0 1) ex_truth.
Proof.
  unfold ex_truth. repeat (apply Forall_cons; [|]); try apply Forall_nil;
    (split; [simpl; lia|]; split; [|dec]); repeat (apply Forall_cons; [split; dec|]); apply Forall_nil.
Qed.
Example C34_ex_starts : starts_in_a_box (ZQ 6) ex_truth.
Proof. exists 0%Z. intros p [<-|[<-|[]]]; apply in_box_6; simpl; lia. Qed.
Lemma step_6 l r l' r' : (-3 < l' - l < 3)%Z -> (-3 < r' - r < 3)%Z ->
  ((exists k, k * 6 <= l < k * 6 + 6 /\ k * 6 <= l' < k * 6 + 6) \/ (exists k, k * 6 <= r < k * 6 + 6 /\ k * 6 <= r' < k * 6 + 6))%Z ->
  small_step (ZQ 6) (ZQ l, ZQ r) (ZQ l', ZQ r') /\ one_crosses (ZQ 6) (ZQ l, ZQ r) (ZQ l', ZQ r').
Proof.
  intros H1 H2 H3.
  assert (forall a b, (-3 < a - b < 3)%Z -> qabs (ZQ a - ZQ b) + qabs (ZQ a - ZQ b) < ZQ 6) as A.
  { intros a b H. rewrite <- ZQ_sub. unfold qabs. destruct (qle 0 (ZQ (a - b))); rewrite <- ?ZQ_opp, <- ZQ_add; apply ZQ_lt; lia. }
  split; [split; apply A; simpl; assumption|].
  destruct H3 as [(k & K1 & K2)|(k & K1 & K2)]; [left|right]; exists k; split; apply in_box_6; assumption.
Qed.
Ltac each_step := intros i p Hi q Hq; at_each i Hi; injection Hi as <-; vm_compute in Hq; injection Hq as <-.
Example C34_ex_steps : frame_steps (ZQ 6) ex_truth.
Proof.
  unfold ex_truth. cbn [frame_steps]. split; [|split; [|exact I]]; unfold frame_step, nearest; intros i p Hi q Hq;
    at_each i Hi; injection Hi as <-; cbn [fst snd zz map length] in Hq;
    match type of Hq with nth_error _ ?n = _ => let n' := eval vm_compute in n in change n with n' in Hq end;
    cbn [nth_error fst snd] in Hq; injection Hq as <-; apply step_6; try lia;
    first [left; exists 0%Z; lia | right; exists 0%Z; lia | right; exists 1%Z; lia].
Qed.

(** Finding: layers are unwrapped independently in the first frame.  If their left edges are then
    on both sides of the boundary the array jumps by a box between layers: here from 0 to 5,
    where the true position is -1. *)
Definition split_map : list (list bin * finfo) := [pic [[5; 5; 5; 0; 0; 0]; [5; 5; 0; 0; 0; 5]]]%Z.
Definition split_truth : list truth := [(0, zz [(0, 2); (-1, 1)])]%Z.
Theorem C34_first_frame_refuted : Forall2 (map_shows bM (Some (ZQ 4)) (Some 1) 1 (None, None) (ZQ 6) 0 1) split_map split_truth /\
  Forall (droplet (ZQ 6) 0 1) split_truth /\ frame_steps (ZQ 6) split_truth /\
  ~ exists c : Z, collect_interfaces bM split_map (Some (ZQ 4)) (Some 1) 1 (None, None) None OtherOption =
      Ok (map (fun f => closed_curve 1 (moved (ZQ c * ZQ 6) (snd f))) split_truth).
Proof.
  split; [constructor; [|constructor]; show_layers 0%Z [(0, 0, 2); (1, 5, 1)]%Z [(0, 2); (-1, 1)]%Z|].
  split; [apply Forall_cons; [|apply Forall_nil]; split; [simpl; lia|]; split; [repeat (apply Forall_cons; [split; dec|]); apply Forall_nil|dec]|].
  split; [exact I|]. intros (c & H).
  assert (same (collect_interfaces bM split_map (Some (ZQ 4)) (Some 1) 1 (None, None) None OtherOption) [[(0, 0); (5, 1); (7, 1); (2, 0)]]%Z = true) as E by (vm_compute; reflexivity).
  rewrite H in E. unfold same, split_truth in E. cbn [map snd] in E. apply Bool.andb_true_iff in E as [_ E]. cbn [combine forallb] in E.
  apply Bool.andb_true_iff in E as [E _]. apply Bool.andb_true_iff in E as [E _]. apply qleqb_eq in E.
  cbn [fst snd zz map moved closed_curve length seq nth app rev] in E. pose proof (f_equal (fun l => nth 0 l 0) E) as E1. pose proof (f_equal (fun l => nth 1 l 0) E) as E2. cbn [nth] in E1, E2.
  assert (ZQ (0 + c * 6) = ZQ 0) as A1 by (rewrite ZQ_add, ZQ_mul; exact E1). assert (ZQ (-1 + c * 6) = ZQ 5) as A2 by (rewrite ZQ_add, ZQ_mul; exact E2).
  apply ZQ_inj in A1, A2. lia.
Qed.
Print Assumptions C34_first_frame_refuted.

(** Finding: a layer without droplet cells between others makes the run fail once the range of
    layers or their number changes. *)
Definition gap_maps : list (list bin * finfo) :=
  [pic [[0; 5; 5; 5; 0; 0]; [0; 5; 5; 0; 0; 0]; [0; 0; 0; 0; 0; 0]; [0; 5; 5; 5; 0; 0]];
   pic [[0; 5; 5; 5; 0; 0]; [0; 5; 5; 0; 0; 0]; [0; 5; 0; 5; 0; 0]; [0; 5; 5; 5; 0; 0]]]%Z.
Theorem C34_gap_refuted : collect_interfaces bM gap_maps (Some (ZQ 4)) (Some 1) 1 (None, None) None OtherOption = Err ValueErr.
Proof. vm_compute. reflexivity. Qed.
Print Assumptions C34_gap_refuted.

(** Finding: 'com' subtracts the mean of the positions in the box from the unwrapped interface.
    For a droplet across the boundary this is not its centre: here the droplet from 4 to 7 has its
    lowest points at 3/2 and 9/2, that is, 0 is not inside it. *)
Theorem C35_com_across_boundary_refuted : exists a st,
  get_interface_coordinates bM (cells [[5; 5; 0; 0; 5; 5]; [5; 5; 0; 0; 5; 5]])%Z (info_of [[5; 5; 0; 0; 5; 5]; [5; 5; 0; 0; 5; 5]])%Z
    (Some (ZQ 4)) (Some 1) 1 (None, None) None Com = Ok (a, st) /\ Forall (fun p => 0 < fst p) a.
Proof.
  eexists. eexists. split; [vm_compute; reflexivity|]. repeat (apply Forall_cons; [dec|]). apply Forall_nil.
Qed.
Print Assumptions C35_com_across_boundary_refuted.
