(** Properties C30-C32, C58: the spreading radius. *)
From Coq Require Import String.
From Verif.Base Require Import QcX Res Np Sort.
From Verif.Model Require Import Bins Flow Interface Spreading.
From Verif.Spec Require Import FlowSpec InterfaceSpec SpreadingSpec.
From Verif.Proofs Require Import InterfaceP SpreadingP.
Local Open Scope list_scope.

(** The frames in which edges were found show the positions of [traj], as positions in the box. *)
Definition observes (box : Qc) (frames : list frame) (traj : list (Qc * Qc)) : Prop :=
  Forall2 (fun f p => f_box f = box /\
             exists l r, f_edges f = Some (l, r) /\ wraps box l (fst p) /\ wraps box r (snd p))
          (filter (fun f => match f_edges f with Some _ => true | None => false end) frames) traj.
Definition rows_of (frames : list frame) (dt t0 : Qc) (save impact : bool) : list row :=
  fst (fst (collect frames dt t0 save impact)).
Definition lines_of (frames : list frame) (dt t0 : Qc) (save impact : bool) : list line :=
  snd (fst (collect frames dt t0 save impact)).

(** ** C30 *)
Theorem C30_radius_across_boundaries : forall box frames traj dt t0 save impact,
  0 < box -> trajectory box traj -> observes box frames traj ->
  Forall2 (fun rw p => r_r rw = Q2Qc (1 # 2) * (snd p - fst p)) (rows_of frames dt t0 save impact) traj.
Proof. exact collect_radius. Qed.
Print Assumptions C30_radius_across_boundaries.

(** ** C31 *)
Theorem C31_edges_are_continuous : forall box frames traj dt t0 save impact,
  0 < box -> trajectory box traj -> steps (one_crosses box) traj -> observes box frames traj ->
  exists c : Z, Forall2 (fun rw p => r_left rw = fst p + ZQ c * box /\ r_right rw = snd p + ZQ c * box)
                        (rows_of frames dt t0 save impact) traj.
Proof. exact collect_edges. Qed.
Print Assumptions C31_edges_are_continuous.

(** A drop which moves right across the boundary: right edge first, then left. *)
Definition q (n : Z) (d : positive) : Qc := Q2Qc (n # d).
Definition fr (l r : Z) : frame := mkFrame "f" (q 10 1) (Some (ZQ l, ZQ r)).
Definition ex_frames : list frame := [mkFrame "e" (q 10 1) None; fr 4 8; fr 6 0; fr 9 3; fr 2 6].
Definition ex_traj : list (Qc * Qc) := map (fun p => (ZQ (fst p), ZQ (snd p))) [(4, 8); (6, 10); (9, 13); (12, 16)]%Z.
Definition row_eq (a b : row) : bool :=
  (qeq (r_t a) (r_t b) && qeq (r_r a) (r_r b) && qeq (r_left a) (r_left b) && qeq (r_right a) (r_right b))%bool.
Example C30_ex_traj : trajectory (q 10 1) ex_traj.
Proof.
  split.
  - repeat constructor; try (apply qle_true; vm_compute; reflexivity); apply qlt_true; vm_compute; reflexivity.
  - repeat split; apply qlt_true; vm_compute; reflexivity.
Qed.
Lemma wraps_ex x X k : (0 <= x < 10)%Z -> (X = x + k * 10)%Z -> wraps (q 10 1) (ZQ x) (ZQ X).
Proof.
  intros H ->. unfold wraps. split; [|split]; [change 0 with (ZQ 0); apply ZQ_le; lia|change (q 10 1) with (ZQ 10); apply ZQ_lt; lia|].
  exists k. change (q 10 1) with (ZQ 10). rewrite ZQ_add, ZQ_mul. reflexivity.
Qed.
Example C30_ex_observes : observes (q 10 1) ex_frames ex_traj.
Proof.
  unfold observes, ex_frames, ex_traj. simpl.
  constructor; [|constructor; [|constructor; [|constructor; [|constructor]]]];
    (split; [reflexivity|]); eexists; eexists; (split; [reflexivity|]); simpl; split;
    solve [apply (wraps_ex _ _ 0); lia | apply (wraps_ex _ _ 1); lia].
Qed.
Example C31_ex_crosses : steps (one_crosses (q 10 1)) ex_traj.
Proof.
  repeat split; [left; exists 0%Z|right; exists 1%Z|right; exists 1%Z]; repeat split;
    solve [apply qle_true; vm_compute; reflexivity | apply qlt_true; vm_compute; reflexivity].
Qed.
Example C31_ex : map r_right (rows_of ex_frames 1 0 false false) = map ZQ [8; 10; 13; 16]%Z.
Proof. apply qleqb_eq. vm_compute. reflexivity. Qed.

(** Finding (the assumption documented in the code is necessary): if both edges
    cross in one step, the positions jump by a box. *)
Theorem C31_both_cross_refuted : exists box frames traj, 0 < box /\ trajectory box traj /\ observes box frames traj /\
  ~ exists c : Z, Forall2 (fun rw p => r_left rw = fst p + ZQ c * box /\ r_right rw = snd p + ZQ c * box)
                          (rows_of frames 1 0 false false) traj.
Proof.
  exists (q 10 1), [fr 8 9; fr 1 2], (map (fun p => (ZQ (fst p), ZQ (snd p))) [(8, 9); (11, 12)]%Z).
  split; [apply qlt_true; vm_compute; reflexivity|]. split; [|split].
  - split; [|repeat split; apply qlt_true; vm_compute; reflexivity].
    repeat constructor; try (apply qle_true; vm_compute; reflexivity); apply qlt_true; vm_compute; reflexivity.
  - unfold observes. simpl. constructor; [|constructor; [|constructor]];
      (split; [reflexivity|]); eexists; eexists; (split; [reflexivity|]); simpl; split;
      solve [apply (wraps_ex _ _ 0); lia | apply (wraps_ex _ _ 1); lia].
  - intros (c & H). inversion H as [|? ? ? ? [A _] H']; subst. inversion H' as [|? ? ? ? [B _] _]; subst.
    simpl in A, B. change (q 10 1) with (ZQ 10) in A, B.
    rewrite <- !ZQ_mul, <- !ZQ_add in A, B. apply ZQ_inj in A, B. lia.
Qed.
Print Assumptions C31_both_cross_refuted.

(** Finding: the box must begin at x = 0.  In the box [-5, 5) a right edge
    which moves from 4 to 6, shown at -4, is counted as having crossed to
    the left: the radius is 7 instead of 3. *)
Theorem C30_box_not_at_zero_refuted :
  map r_r (rows_of [fr 0 4; fr 0 (-4)] 1 0 false false) = map ZQ [2; 7]%Z.
Proof. apply qleqb_eq. vm_compute. reflexivity. Qed.
Print Assumptions C30_box_not_at_zero_refuted.

(** ** C32: times and output *)
Theorem C32_times_partial : forall frames dt t0 save impact,
  map r_t (rows_of frames dt t0 save impact) =
  map (fun k => t0 + NQ k * dt)
      (seq 0 (List.length (filter (fun f => match f_edges f with Some _ => true | None => false end) frames))).
Proof. intros. etransitivity; [|exact (loop_times frames 0 dt t0 init_periodic_info save impact)]. unfold rows_of. f_equal. apply collect_rows. Qed.
Print Assumptions C32_times_partial.

(** If edges are found in all frames from the impact on, the row of frame
    number [n] has time t0 + (n - impact frame number) * dt. *)
Theorem C32_times_without_gaps : forall before after dt t0 save impact,
  (forall f, In f before -> f_edges f = None) -> (forall f, In f after -> f_edges f <> None) ->
  List.length (rows_of (before ++ after) dt t0 save impact) = List.length after /\
  forall k rw, nth_error (rows_of (before ++ after) dt t0 save impact) k = Some rw ->
    r_t rw = t0 + (NQ (List.length before + k) - NQ (List.length before)) * dt.
Proof.
  intros before after dt t0 save impact Hb Ha.
  pose proof (C32_times_partial (before ++ after) dt t0 save impact) as H.
  assert (filter (fun f => match f_edges f with Some _ => true | None => false end) (before ++ after) = after) as EF.
  { rewrite filter_app. replace (filter _ before) with (@nil frame).
    - simpl. clear H Hb. induction after as [|f after IH]; [reflexivity|]. simpl.
      destruct (f_edges f) eqn:E; [|exfalso; apply (Ha f); simpl; auto]. f_equal. apply IH. intros; apply Ha; simpl; auto.
    - clear H Ha. induction before as [|f before IH]; [reflexivity|]. simpl. rewrite (Hb f) by (simpl; auto). apply IH. intros; apply Hb; simpl; auto. }
  rewrite EF in H. split.
  - rewrite <- (map_length r_t), H, map_length, seq_length. reflexivity.
  - intros k rw Hk. assert (nth_error (map r_t (rows_of (before ++ after) dt t0 save impact)) k = Some (r_t rw)) as Hn
      by (rewrite nth_error_map, Hk; reflexivity).
    rewrite H, nth_error_map in Hn.
    assert (k < List.length after)%nat as Hl. { apply nth_error_Some. rewrite <- (nth_error_nth' (seq 0 (List.length after)) 0%nat (n:=k)) in Hn || idtac.
      intros C. apply nth_error_None in C. assert (nth_error (seq 0 (List.length after)) k = None) as C' by (apply nth_error_None; rewrite seq_length; assumption).
      rewrite C' in Hn. discriminate. }
    rewrite (nth_error_nth' _ 0%nat) in Hn by (rewrite seq_length; assumption). rewrite seq_nth in Hn by assumption.
    simpl in Hn. injection Hn as <-. rewrite NQ_add. ring.
Qed.
Print Assumptions C32_times_without_gaps.

(** Finding: a frame without edges after the impact does not count: all later
    times are too small.  Here frame 2 has time 1. *)
Theorem C32_gap_refuted : map r_t (rows_of [fr 1 2; mkFrame "g" (q 10 1) None; fr 1 3] 1 0 false false) = map ZQ [0; 1]%Z.
Proof. apply qleqb_eq. vm_compute. reflexivity. Qed.
Print Assumptions C32_gap_refuted.

(** The first output of a process: header, impact (once), then the rows. *)
Theorem C32_first_output : forall frames dt t0,
  lines_of frames dt t0 true false =
  LHeader :: match rows_of frames dt t0 true false with
             | [] => []
             | rows => match first_detected frames 0 with Some (k, path) => [LImpact (NQ k * dt) path] | None => [] end
             end ++ map (fun r => LRow (r_t r) (r_r r) (r_left r) (r_right r)) (rows_of frames dt t0 true false).
Proof.
  intros. pose proof (loop_lines frames 0 dt t0 init_periodic_info false) as H.
  pose proof (loop_times frames 0 dt t0 init_periodic_info true false) as HT.
  assert (first_detected frames 0 = None -> filter detected frames = []) as HN.
  { generalize 0%nat. induction frames as [|f fs IH]; intros n; [reflexivity|]. simpl. unfold detected at 1.
    destruct (f_edges f); [discriminate|]. intros HH. eapply IH; eauto; try apply loop_lines; try apply loop_times. }
  unfold lines_of, rows_of, collect in *. unfold the_lines, the_rows in *.
  destruct (collect_loop frames 0 dt t0 init_periodic_info true false) as [[rows lines] im]. simpl in *. rewrite H.
  destruct (first_detected frames 0) as [[k pth]|] eqn:E.
  - destruct rows; [|reflexivity]. exfalso. simpl in HT. symmetry in HT. apply map_eq_nil in HT.
    destruct (List.length (filter detected frames)) eqn:EL; [|discriminate].
    apply length_zero_iff_nil in EL. clear - E EL. revert E. generalize 0%nat. induction frames as [|f fs IH]; intros n; simpl in *; [discriminate|].
    unfold detected at 1 in EL. destruct (f_edges f); [discriminate|]. apply IH. exact EL.
  - destruct rows; reflexivity.
Qed.
Print Assumptions C32_first_output.
(** [first_detected] is the number and path of the first frame with edges. *)
Theorem C32_impact_frame : forall frames k path, first_detected frames 0 = Some (k, path) <->
  exists f, nth_error frames k = Some f /\ f_path f = path /\ f_edges f <> None /\
    forall j g, (j < k)%nat -> nth_error frames j = Some g -> f_edges g = None.
Proof.
  assert (forall frames n k path, first_detected frames n = Some (k, path) <-> (n <= k)%nat /\
    exists f, nth_error frames (k - n) = Some f /\ f_path f = path /\ f_edges f <> None /\
    forall j g, (j < k - n)%nat -> nth_error frames j = Some g -> f_edges g = None) as H.
  { induction frames as [|f fs IH]; intros n k path; simpl.
    - split; [discriminate|]. intros (_ & f & Hf & _). destruct (k - n)%nat; discriminate.
    - destruct (f_edges f) as [e|] eqn:E.
      + split.
        * intros [= <- <-]. split; [lia|]. exists f. replace (n - n)%nat with 0%nat by lia. simpl. repeat split; try congruence. intros; lia.
        * intros (Hn & g & Hg & Hp & He & Hf). destruct (k - n)%nat as [|m] eqn:EK.
          -- simpl in Hg. injection Hg as <-. subst path. repeat f_equal. lia.
          -- exfalso. specialize (Hf 0%nat f). rewrite Hf in E; [discriminate|lia|reflexivity].
      + rewrite IH. split.
        * intros (Hn & g & Hg & Hp & He & Hf). split; [lia|]. replace (k - n)%nat with (S (k - S n)) by lia. exists g. simpl.
          repeat split; auto. intros [|j] h Hj Hh; simpl in Hh; [congruence|]. eapply Hf; [|exact Hh]. lia.
        * intros (Hn & g & Hg & Hp & He & Hf). destruct (k - n)%nat as [|m] eqn:EK; [simpl in Hg; congruence|].
          split; [lia|]. replace (k - S n)%nat with m by lia. exists g. simpl in Hg. repeat split; auto.
          intros j h Hj Hh. apply (Hf (S j) h); [lia|exact Hh]. }
  intros. rewrite H. replace (k - 0)%nat with k by lia. split; [intros (_ & X); exact X|intros X; split; [lia|exact X]].
Qed.
Print Assumptions C32_impact_frame.
Example C32_ex : exists rest, lines_of ex_frames 1 0 true false = LHeader :: LImpact (NQ 1 * 1) "f"%string :: rest /\ List.length rest = 4%nat.
Proof. eexists. split; reflexivity. Qed.
Example C32_ex_first : first_detected ex_frames 0 = Some (1%nat, "f"%string). Proof. reflexivity. Qed.

(** Finding: the impact is written once per process, not once per file: a
    second call writes no impact line. *)
Theorem C32_second_output_refuted : exists frames, exists flag,
  snd (collect frames 1 0 true false) = flag /\ rows_of frames 1 0 true flag <> [] /\
  forall t p, ~ In (LImpact t p) (lines_of frames 1 0 true flag).
Proof.
  exists [fr 1 2], true. split; [vm_compute; reflexivity|]. split; [vm_compute; discriminate|].
  intros t p. simpl. intros [H|[H|[]]]; discriminate.
Qed.
Print Assumptions C32_second_output_refuted.

(** ** C58: which layer the edges are taken from *)
Theorem C58_lowest_layer : forall V cutoff r, (forall b d, V (shift_x d b) = V b) -> forall box by_ fi data nb,
  0 <= r -> r <= box -> size fi = Some (box, by_) -> layers_in_order data box ->
  exists e, get_spreading_edges V data fi (Some cutoff) (Some r) nb true None = Ok e /\
  match e with
  | None => forall y, ~ wet_layer V data box cutoff r nb y
  | Some (xl, xr) => exists y il ir, wet_layer V data box cutoff r nb y /\
      (forall y', wet_layer V data box cutoff r nb y' -> y <= y') /\
      layer_stretch V data box cutoff r nb y il ir /\ xl = x_of data il /\ xr = x_of data ir
  end.
Proof. exact edges_lowest. Qed.
Print Assumptions C58_lowest_layer.

(** With a floor only the layer chosen for this floor counts. *)
Theorem C58_floor_layer : forall V cutoff r, (forall b d, V (shift_x d b) = V b) -> forall box by_ fi data nb,
  0 <= r -> r <= box -> size fi = Some (box, by_) -> layers_in_order data box ->
  forall f y, get_floor_height (Some f) (map bY data) = Ok (Some y) ->
  exists e, get_spreading_edges V data fi (Some cutoff) (Some r) nb true (Some f) = Ok e /\
  match e with
  | None => ~ wet_layer V data box cutoff r nb y
  | Some (xl, xr) => exists il ir, wet_layer V data box cutoff r nb y /\
      layer_stretch V data box cutoff r nb y il ir /\ xl = x_of data il /\ xr = x_of data ir
  end.
Proof. exact edges_floor. Qed.
Print Assumptions C58_floor_layer.

(** The chosen layer is that of the first record at most 1 above the floor. *)
Theorem C58_chosen_layer : forall f ys y, get_floor_height (Some f) ys = Ok (Some y) ->
  exists k, nth_error ys k = Some y /\
    ((exists y', In y' ys /\ (f < y' /\ y' <= f + 1)) ->
     (f < y /\ y <= f + 1) /\ forall j y', (j < k)%nat -> nth_error ys j = Some y' -> ~ (f < y' /\ y' <= f + 1)).
Proof. exact floor_height. Qed.
Print Assumptions C58_chosen_layer.
Theorem C58_always_chosen : forall f ys, ys <> [] -> exists y, get_floor_height (Some f) ys = Ok (Some y).
Proof. exact floor_exists. Qed.
Print Assumptions C58_always_chosen.

Definition mb (x y m : Z) : bin := mkBin (ZQ x) (ZQ y) 0 0 (ZQ m) 0 0.
Definition ex_map : list bin := [mb 0 0 0; mb 1 0 0; mb 2 0 0; mb 3 0 0; mb 0 1 5; mb 1 1 5; mb 2 1 0; mb 3 1 5].
Definition ex_info : finfo := mkFinfo (Some (4, 2)%Z) (Some (0, 0)) (Some (1, 1)) (Some 8%Z).
Example C58_ex : get_spreading_edges bM ex_map ex_info (Some (q 4 1)) (Some 1) 1 true None = Ok (Some (ZQ 3, ZQ 1)).
Proof. vm_compute. reflexivity. Qed.
Example C58_ex_floor : get_spreading_edges bM ex_map ex_info (Some (q 4 1)) (Some 1) 1 true (Some (q (-1) 2)) = Ok None
  /\ get_spreading_edges bM ex_map ex_info (Some (q 4 1)) (Some 1) 1 true (Some (q 1 2)) = Ok (Some (ZQ 3, ZQ 1)).
Proof. split; vm_compute; reflexivity. Qed.

(** Finding: a floor which is exactly the height of a layer does not select
    this layer but the next one. *)
Theorem C58_floor_at_layer_refuted : exists ys f y, In f ys /\ get_floor_height (Some f) ys = Ok (Some y) /\ y <> f.
Proof.
  exists [0; 1], 0, 1. split; [simpl; auto|]. split; [vm_compute; reflexivity|]. apply qeq_false. vm_compute. reflexivity.
Qed.
Print Assumptions C58_floor_at_layer_refuted.
