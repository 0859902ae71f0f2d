(** Property C55, part 3: the hypotheses are met. *)
From Coq Require Import String Permutation.
From Verif.Base Require Import QcX Res Np ListX Sums Bytes.
From Verif.Model Require Import Bins Text Gmx Simple Formats Average.
From Verif.Model Require SimpleAverage Sample.
From Verif.Model Require Import Utils.
From Verif.Spec Require Import FilesSpec DiskSpec MapSpec AverageSpec.
From Verif.Proofs Require Import UtilsFiles UtilsDisk UtilsTop TextP GmxP GmxRoundP SimpleP FormatsP SimpleAverageP RecentreP AverageFilesP AverageCutP.
From Verif.Props Require Import GmxProps SimpleProps FormatsProps AverageFilesProps AverageFailProps.
Local Open Scope list_scope.

(** Maps of single precision numbers with mass everywhere are stored exactly. *)
Lemma exact_file m nx ny x0 y0 dx dy : column_grid m nx ny (x0 + Q2Qc (1 # 2) * dx) (y0 + Q2Qc (1 # 2) * dy) dx dy -> (29 <= nx * ny)%nat -> (Z.of_nat nx < 2 ^ 64)%Z -> (Z.of_nat ny < 2 ^ 64)%Z ->
  six_decimal_number x0 -> six_decimal_number y0 -> six_decimal_number dx -> six_decimal_number dy ->
  (forall b, In b m -> bM b <> 0 /\ is_single (bN b) /\ is_single (bT b) /\ is_single (bM b) /\ is_single (bU b) /\ is_single (bV b)) ->
  exists file, guess_read_module (Some file) = GmxModule /\ values_within single_max m /\ forall fuel, (List.length file < fuel)%nat -> map_file fuel file nx ny x0 y0 dx dy m.
Proof.
  intros [L P] H29 Hx Hy S1 S2 S3 S4 HB.
  assert (values_within single_max m) as V by (intros b Hb; destruct (HB b Hb) as (_ & A1 & A2 & A3 & A4 & A5); repeat (split; [apply single_le_max; assumption|]); apply single_le_max; assumption).
  destruct (store_map m nx ny x0 y0 dx dy L V Hx Hy S1 S2 S3 S4) as (file & _ & G & R).
  { left. unfold filled. assert (filter (fun v => negb (qeq v 0)) (map bM m) = map bM m) as ->; [|rewrite map_length, L; exact H29].
    clear - HB. induction m as [|b m IH]; [reflexivity|]. cbn [map filter]. assert (qeq (bM b) 0 = false) as -> by (apply qeq_false; apply HB; left; reflexivity). cbn [negb]. rewrite IH; [reflexivity|]. intros; apply HB; right; assumption. }
  exists file. split; [exact G|]. split; [exact V|]. intros fuel Hf. destruct (R fuel Hf) as (r & MF & HR). assert (r = m) as <-; [|exact MF].
  pose proof (map_file_grid _ _ _ _ _ _ _ _ _ MF) as [Lr Pr]. rewrite G in Pr. apply nth_ext with bin0 bin0; [congruence|]. intros p Hp. rewrite Lr in Hp.
  assert (ny <> 0)%nat as Hn by nia. assert (p = p / ny * ny + p mod ny)%nat as Ep by (rewrite Nat.mul_comm; apply Nat.div_mod; exact Hn).
  assert (p / ny < nx)%nat as H1 by (apply Nat.div_lt_upper_bound; [exact Hn|lia]). pose proof (Nat.mod_upper_bound p ny Hn) as H2.
  destruct (P _ _ H1 H2) as [PX PY]. destruct (Pr _ _ H1 H2) as [RX RY]. rewrite <- Ep in PX, PY, RX, RY.
  assert (In (nth p m bin0) m) as Hin by (apply nth_In; lia). destruct (HB _ Hin) as (HM & A1 & A2 & A3 & A4 & A5). destruct (HR p Hp) as [_ K]. destruct (K HM) as (K1 & K2 & K3 & K4 & K5).
  apply (fun h => proj2 h) in K1, K2, K3, K4, K5. specialize (K1 A1). specialize (K2 A2). specialize (K3 A3). specialize (K4 A4). specialize (K5 A5).
  destruct (nth p m bin0) as [c1 c2 c3 c4 c5 c6 c7], (nth p r bin0) as [d1 d2 d3 d4 d5 d6 d7]. cbn [bX bY bN bT bM bU bV] in *. congruence.
Qed.
Lemma small_single z : (Z.abs z < 2 ^ 24)%Z -> is_single (ZQ z).
Proof. intros H. exists z, 0%Z. split; [exact H|]. split; [lia|]. change (pow2 0) with 1. ring. Qed.

(** Two frames with 40 bins: one of constant values, one with mass increasing from bin to bin. *)
Definition frame_map (k : Z) : list bin :=
  grid 10 4 (fun i j => mkBin (Q2Qc (9 # 8) + NQ i * Q2Qc (1 # 4)) (Q2Qc (-7 # 4) + NQ j * Q2Qc (1 # 2)) 1 (ZQ 300) (if (k =? 1)%Z then 1 else NQ (i * 4 + j + 1)) (ZQ (-1)) (ZQ k)).
Lemma frame_grid k : column_grid (frame_map k) 10 4 (1 + Q2Qc (1 # 2) * Q2Qc (1 # 4)) (ZQ (-2) + Q2Qc (1 # 2) * Q2Qc (1 # 2)) (Q2Qc (1 # 4)) (Q2Qc (1 # 2)).
Proof.
  split; [apply grid_length|]. intros i j Hi Hj. cbv zeta. unfold frame_map. rewrite grid_nth by assumption. cbn [bX bY].
  replace (1 + Q2Qc (1 # 2) * Q2Qc (1 # 4)) with (Q2Qc (9 # 8)) by (apply Qc_is_canon; reflexivity). replace (ZQ (-2) + Q2Qc (1 # 2) * Q2Qc (1 # 2)) with (Q2Qc (-7 # 4)) by (apply Qc_is_canon; reflexivity).
  split; reflexivity.
Qed.
Lemma six_1 : six_decimal_number 1. Proof. exists 1000000%Z; apply Qc_is_canon; reflexivity. Qed.
Lemma six_2 : six_decimal_number (ZQ (-2)). Proof. exists (-2000000)%Z; apply Qc_is_canon; reflexivity. Qed.
Lemma six_3 : six_decimal_number (Q2Qc (1 # 4)). Proof. exists 250000%Z; apply Qc_is_canon; reflexivity. Qed.
Lemma six_4 : six_decimal_number (Q2Qc (1 # 2)). Proof. exists 500000%Z; apply Qc_is_canon; reflexivity. Qed.
Lemma frame_singles k b : (1 <= k <= 2)%Z -> In b (frame_map k) -> bM b <> 0 /\ is_single (bN b) /\ is_single (bT b) /\ is_single (bM b) /\ is_single (bU b) /\ is_single (bV b).
Proof.
  intros Hk Hb. unfold frame_map in Hb. apply in_grid in Hb. destruct Hb as (i & j & Hi & Hj & ->). cbn [bN bT bM bU bV].
  assert (is_single (if (k =? 1)%Z then 1 else NQ (i * 4 + j + 1)) /\ (if (k =? 1)%Z then 1 else NQ (i * 4 + j + 1)) <> 0) as [S N].
  { destruct (k =? 1)%Z; [split; [apply (small_single 1); reflexivity|intros K; discriminate K]|]. split; [unfold NQ; apply small_single; lia|]. apply NQ_nz. lia. }
  split; [exact N|]. split; [apply (small_single 1); reflexivity|]. split; [apply small_single; reflexivity|]. split; [exact S|]. split; apply small_single; [reflexivity|lia].
Qed.
Lemma frame_file k : (1 <= k <= 2)%Z -> exists file, guess_read_module (Some file) = GmxModule /\ values_within single_max (frame_map k) /\
  forall fuel, (List.length file < fuel)%nat -> map_file fuel file 10 4 1 (ZQ (-2)) (Q2Qc (1 # 4)) (Q2Qc (1 # 2)) (frame_map k).
Proof. intros Hk. apply exact_file; [apply frame_grid|lia|reflexivity|reflexivity|exact six_1|exact six_2|exact six_3|exact six_4|]. intros b. apply frame_singles. exact Hk. Qed.
Lemma frame_weights k : weights_nonneg (frame_map k).
Proof.
  intros b Hb. unfold frame_map in Hb. apply in_grid in Hb. destruct Hb as (i & j & Hi & Hj & ->). cbn [bN bM]. split; [|intros K; discriminate K].
  destruct (k =? 1)%Z; [intros K; discriminate K|apply NQ_nonneg].
Qed.
Definition two_frames (f1 f2 : string) : disk := {| files := [(os_path "map_00001.dat", f1); (os_path "map_00002.dat", f2); (os_path "avg_00001.dat", "old"%string)]; dirs := [] |}.
Definition default_fopts : fopts := {| o_begin := None; o_end := None; o_ext := None; o_outext := None |}.
Lemma two_frames_set f1 f2 : all_set (two_frames f1 f2) "map_" "avg_" default_fopts 9 2 2 false.
Proof.
  split. { repeat constructor; cbn; intuition discriminate. }
  split; [lia|]. split; [unfold no_slash; cbn; intuition discriminate|]. split; [lia|]. split.
  - split.
    + intros k Hk. assert (k = 0 \/ k = 1)%Z as [-> | ->] by lia; (split; [exact I|reflexivity]).
    + intros [_ K]. discriminate K.
  - intros i j K k H. unfold bundles in H. cbn in H. lia.
Qed.
Lemma two_frames_series : exists fuel f1 f2, series fuel (two_frames f1 f2) "map_" default_fopts 2 10 4 1 (ZQ (-2)) (Q2Qc (1 # 4)) (Q2Qc (1 # 2)) GmxModule frame_map.
Proof.
  destruct (frame_file 1 ltac:(lia)) as (f1 & G1 & V1 & R1). destruct (frame_file 2 ltac:(lia)) as (f2 & G2 & V2 & R2).
  exists (S (List.length f1 + List.length f2)), (string_of f1), (string_of f2). split.
  - intros k Hk. assert (k = 1 \/ k = 2)%Z as [-> | ->] by (unfold start_of in Hk; cbn in Hk; lia).
    + exists (string_of f1). split; [reflexivity|]. rewrite bytes_string. split; [exact G1|]. split; [apply R1; lia|]. split; [apply frame_weights|exact V1].
    + exists (string_of f2). split; [reflexivity|]. rewrite bytes_string. split; [exact G2|]. split; [apply R2; lia|]. split; [apply frame_weights|exact V2].
  - split; [reflexivity|]. split; [reflexivity|]. split; [exact six_1|]. split; [exact six_2|]. split; [exact six_3|]. split; [exact six_4|lia].
Qed.
Definition averaging (recenter : string) : aopts := mkAopts (None, None) (None, None) None recenter None None None 1 1 false.
Lemma no_limits v : in_range (None, None) v.
Proof. split; intros a K; discriminate K. Qed.
Example C55_averaged_nonvacuous : exists d fuel, all_set d "map_" "avg_" default_fopts 9 2 2 false /\
  series fuel d "map_" default_fopts 2 10 4 1 (ZQ (-2)) (Q2Qc (1 # 4)) (Q2Qc (1 # 2)) GmxModule frame_map /\
  plain_options (averaging "") 10 4 (1 + half_if_gmx GmxModule * Q2Qc (1 # 4)) (ZQ (-2) + half_if_gmx GmxModule * Q2Qc (1 # 2)) (Q2Qc (1 # 4)) (Q2Qc (1 # 2)) /\
  bundles 2 2 false = 1%nat /\ cells_with_mass 40 (map frame_map (bundle default_fopts 2 false 0)) = 40%nat.
Proof.
  destruct two_frames_series as (fuel & f1 & f2 & HS). exists (two_frames f1 f2), fuel.
  split; [apply two_frames_set|]. split; [exact HS|]. split; [|split; [reflexivity|vm_compute; reflexivity]].
  split; [reflexivity|]. split; [reflexivity|]. split; [reflexivity|]. split; intros; apply no_limits.
Qed.
(** Recentring around the centre of mass: the column nearest to it is 4 in the first frame and 6 in the second. *)
Definition centre (k : Z) : Qc := match recenter_value (averaging "com") (part (frame_map k) 4 0 10 0 4) with Ok (Some v) => v | _ => 0 end.
Example C55_recentred_nonvacuous :
  recentring (averaging "com") 10 4 (1 + half_if_gmx GmxModule * Q2Qc (1 # 4)) (ZQ (-2) + half_if_gmx GmxModule * Q2Qc (1 # 2)) (Q2Qc (1 # 4)) (Q2Qc (1 # 2)) 0 10 0 4 frame_map centre
    (fun k => start_of default_fopts <= k < start_of default_fopts + Z.of_nat 2)%Z /\
  six_decimal_number (1 + half_if_gmx GmxModule * Q2Qc (1 # 4)) /\ six_decimal_number (ZQ (-2) + half_if_gmx GmxModule * Q2Qc (1 # 2)) /\
  let c k := cnum (1 + half_if_gmx GmxModule * Q2Qc (1 # 4)) (Q2Qc (1 # 4)) (centre k) in map c (bundle default_fopts 2 false 0) = [4; 6]%Z /\
  cells_with_mass (8 * 4) (map (fun k => shifted (part (frame_map k) 4 0 10 0 4) (if (k =? 1)%Z then 4 else 6) 4 8 4) (bundle default_fopts 2 false 0)) = 32%nat.
Proof.
  split.
  - split; [reflexivity|]. split; [intros K; discriminate K|]. split; [reflexivity|].
    split; [split; [lia|]; intros i Hi; split; [lia|]; intros _; apply no_limits|]. split; [split; [lia|]; intros i Hi; split; [lia|]; intros _; apply no_limits|].
    split; [lia|]. split; [lia|]. split; [reflexivity|]. split; [reflexivity|].
    intros k Hk. assert (match recenter_value (averaging "com") (part (frame_map k) 4 0 10 0 4) with Ok (Some _) => true | _ => false end = true) as K.
    { assert (k = 1 \/ k = 2)%Z as [-> | ->] by (unfold start_of in Hk; cbn in Hk; lia); vm_compute; reflexivity. }
    unfold centre. destruct (recenter_value (averaging "com") (part (frame_map k) 4 0 10 0 4)) as [[v|]|]; [reflexivity|discriminate K|discriminate K].
  - split; [exists 1125000%Z; apply Qc_is_canon; reflexivity|]. split; [exists (-1750000)%Z; apply Qc_is_canon; reflexivity|].
    split; vm_compute; reflexivity.
Qed.
(** No position: a cutoff above all masses. *)
Example C55_no_position_nonvacuous : forall k, In k (bundle default_fopts 2 false 0) ->
  recenter_value (mkAopts (None, None) (None, None) None "left" None None (Some (ZQ 1000)) 1 1 false) (frame_map k) = Ok None.
Proof. intros k Hk. cbn in Hk. destruct Hk as [<-|[<-|[]]]; vm_compute; reflexivity. Qed.
