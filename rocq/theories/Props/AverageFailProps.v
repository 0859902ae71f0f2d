(** Property C55, part 2: options of strata.average which do not work. *)
From Coq Require Import String Permutation.
From Verif.Base Require Import QcX Res Np ListX Sums Bytes.
From Verif.Model Require Import Bins Text Gmx Simple Formats Average.
From Verif.Model Require SimpleAverage Sample Resample Flow.
From Verif.Model Require Import Utils.
From Verif.Spec Require Import FilesSpec DiskSpec MapSpec AverageSpec InterfaceSpec.
From Verif.Spec Require FlowSpec.
From Verif.Model Require Interface Spreading.
From Verif.Proofs Require InterfaceP.
From Verif.Props Require SampleProps.
From Verif.Proofs Require Import UtilsFiles UtilsDisk UtilsTop TextP GmxP GmxRoundP SimpleP FormatsP SimpleAverageP CombineBinsP RecentreP AverageFilesP AverageCutP.
From Verif.Props Require Import GmxProps SimpleProps FormatsProps AverageFilesProps.
Local Open Scope list_scope.

(** A run which ends with the first bundle: its output is [result] (none, or an empty file), other files keep their contents, and no content is lost. *)
Definition aborted (d d' : disk) (output : string) (o : fopts) (M : nat) (rolling : bool) (result : option string) : Prop :=
  exists K, bundle_output (start_of o) M rolling 0 K /\ lookup (files d') (dst output o K) = result /\
    (forall q, q <> dst output o K -> exists_path d q = true -> lookup (files d') q = lookup (files d) q) /\
    Permutation (contents d') (contents d ++ match result with None => [] | Some c => [c] end).

(** The first group is not averaged, or not written. *)
Lemma first_group ffuel fuel ao quiet d base output o n M rolling : all_set d base output o ffuel n M rolling -> (0 < bundles n M rolling)%nat ->
  let group := map (fun k => option_map bytes_of (lookup (files d) (src base o k))) (bundle o M rolling 0) in
  (forall e, average_group fuel ao group = Err e -> average ffuel fuel ao quiet d base output (Z.of_nat M) rolling o = (d, Some e)) /\
  (forall b w e, average_group fuel ao group = Ok (b, w) -> gmx_write (dict_of_bins b) (mkGinfo (w_shape w) (w_spacing w) (match w_origin w with Some o => o | None => (0, 0) end)) = Err e ->
     exists d', average ffuel fuel ao quiet d base output (Z.of_nat M) rolling o = (d', Some e) /\ aborted d d' output o M rolling None) /\
  (forall b w, average_group fuel ao group = Ok (b, w) -> w_origin w = None ->
     exists d' e r, average ffuel fuel ao quiet d base output (Z.of_nat M) rolling o = (d', Some e) /\ aborted d d' output o M rolling r /\ (r = None \/ r = Some ""%string)).
Proof.
  intros (Hw & HM & Hs & Hf & Hr & Hsep) Hb group. unfold average.
  destruct (groups_run (fun s => exists_path d (os_path s)) base output M rolling o n HM) as (out0 & B0 & E0).
  { destruct Hr as [R1 R2]. unfold good. split; [intros k Hk; specialize (R1 k Hk)|intros K; apply R2]; unfold src in *; fold (ext_of o); fold (start_of o); destruct (o_end o) as [[|]|]; assumption. }
  rewrite (E0 ffuel Hf). fold (ext_of o) in *. fold (outext_of o) in *. fold (start_of o) in *.
  destruct (bundles n M rolling) as [|cnt]; [lia|]. cbn [seq map Average.average_groups].
  assert (map (Average.content d) (map (fun k => fname base k (ext_of o)) (numbers (bundle_start (start_of o) M rolling 0) M)) = group) as EC by (rewrite map_map; reflexivity).
  rewrite EC. clear EC. specialize (B0 0%nat).
  assert (forall b w e, average_group fuel ao group = Ok (b, w) -> forall d', write_map d (dst output o (out0 + Z.of_nat 0)) b w = (d', Some e) ->
     exists r, aborted d d' output o M rolling r /\ (r = None \/ r = Some ""%string /\ w_origin w = None)) as K.
  { intros b w e Hg d' EW. destruct (write_map_fails _ _ _ _ _ _ Hw EW) as (W' & O & [[P L]|(P & L & N)]).
    - exists None. split; [|left; reflexivity]. exists (out0 + Z.of_nat 0)%Z. split; [exact B0|]. split; [exact L|]. split; [exact O|]. rewrite app_nil_r. exact P.
    - exists (Some ""%string). split; [|right; split; [reflexivity|exact N]]. exists (out0 + Z.of_nat 0)%Z. split; [exact B0|]. split; [exact L|]. split; [exact O|exact P]. }
  split; [|split].
  - intros e ->. reflexivity.
  - intros b w e Hg He. specialize (K b w e Hg). rewrite Hg. fold (dst output o (out0 + Z.of_nat 0)).
    destruct (write_map d (dst output o (out0 + Z.of_nat 0)) b w) as [d' [e'|]] eqn:EW.
    + unfold write_map in EW. destruct (prepare_ops d (dst output o (out0 + Z.of_nat 0))) as [pre|e0] eqn:EP; [|exfalso].
      * rewrite He in EW. injection EW as <- <-. eexists. split; [reflexivity|]. destruct (write_map_fails d (dst output o (out0 + Z.of_nat 0)) b w e (exec_ops d pre) Hw) as (W' & O & [[P L]|(P & L & N)]).
        -- unfold write_map. rewrite EP, He. reflexivity.
        -- exists (out0 + Z.of_nat 0)%Z. split; [exact B0|]. split; [exact L|]. split; [exact O|]. rewrite app_nil_r. exact P.
        -- exfalso. destruct (do_call_spec d (dst output o (out0 + Z.of_nat 0)) [] Hw) as (d2 & E2 & _). clear E2.
           destruct (write_map_fails d (dst output o (out0 + Z.of_nat 0)) b (mkWinfo (w_shape w) (w_spacing w) (Some (0, 0))) e (exec_ops d pre) Hw) as (_ & _ & [[_ L']|(_ & _ & N')]); [|congruence|discriminate N'].
           unfold write_map. rewrite EP. cbn [w_shape w_spacing w_origin]. rewrite N in He. rewrite He. reflexivity.
      * destruct (do_call_spec d (dst output o (out0 + Z.of_nat 0)) [] Hw) as (d2 & E2 & _). unfold do_call, write_ops in E2. cbn [fst snd] in E2. rewrite EP in E2. discriminate E2.
    + exfalso. unfold write_map in EW. destruct (prepare_ops d (dst output o (out0 + Z.of_nat 0))) as [pre|e0]; [|discriminate EW]. rewrite He in EW. discriminate EW.
  - intros b w Hg Ho. specialize (K b w). rewrite Hg. fold (dst output o (out0 + Z.of_nat 0)).
    destruct (write_map d (dst output o (out0 + Z.of_nat 0)) b w) as [d' [e'|]] eqn:EW.
    + destruct (K e' Hg d' eq_refl) as (r & A & Hr'). exists d', e', r. split; [reflexivity|]. split; [exact A|]. destruct Hr' as [|[]]; [left|right]; assumption.
    + exfalso. unfold write_map in EW. destruct (prepare_ops d (dst output o (out0 + Z.of_nat 0))) as [pre|e0]; [|discriminate EW].
      destruct (gmx_write _ _); [rewrite Ho in EW|]; discriminate EW.
Qed.

(** ** Combining bins, cutting *)
(** The average of all frames of the first bundle, cut to the limits. *)
Lemma first_average fuel ao d base o n nx ny x0 y0 dx dy md m M rolling a NX b NY : series fuel d base o n nx ny x0 y0 dx dy md m -> (0 < M)%nat -> (0 < bundles n M rolling)%nat ->
  range_columns (a_xlim ao) (x0 + half_if_gmx md * dx) dx nx a NX -> range_columns (a_ylim ao) (y0 + half_if_gmx md * dy) dy ny b NY -> a_recenter ao = ""%string ->
  exists avg, length avg = (NX * NY)%nat /\
  average_group fuel ao (map (fun k => option_map bytes_of (lookup (files d) (src base o k))) (bundle o M rolling 0)) =
    do avg <- match a_combine ao with None => Ok avg | Some (cx, cy) => do c <- SimpleAverage.combine_bins avg (mkInfo (nx, ny) (dx, dy) (x0, y0) (nx * ny)) cx cy; Ok (fst c) end;
    match a_super ao with
    | None => Ok (avg, mkWinfo (Z.of_nat nx, Z.of_nat ny) (dx, dy) (Some (x0, y0)))
    | Some n =>
      do f <- Resample.supersample (Some n) super_weights (Sample.flow_of avg (Flow.mkFinfo (Some (Z.of_nat nx, Z.of_nat ny)) None (Some (dx, dy)) None));
      Ok (map Sample.bin_of (Flow.rows (Flow.data f)), mkWinfo (Z.of_nat nx, Z.of_nat ny) (dx, dy) None)
    end.
Proof.
  intros HS HM Hb RX RY HR. destruct (series_files _ _ _ _ _ _ _ _ _ _ _ _ _ M rolling 0 HS HM Hb) as (fs & E & F). rewrite E. set (maps := map m (bundle o M rolling 0)) in *.
  pose proof (fun mk => series_in _ _ _ _ _ _ _ _ _ _ _ _ _ M rolling 0 mk HS HM Hb) as HI. fold maps in HI. pose proof HS as (_ & Hx & Hy & S1 & S2 & S3 & S4 & H0).
  assert (maps <> []) as Hne by (unfold maps; intros K; apply map_eq_nil in K; exact (bundle_nonempty o M rolling 0 HM K)).
  set (cut := fun mk => part mk ny a NX b NY).
  rewrite (group_maps_all fuel ao fs maps cut nx ny x0 y0 dx dy md Hne); [|intros mk Hmk; apply (cut_to_part ao mk nx ny _ _ dx dy a NX b NY H0 (proj1 (HI mk Hmk)) RX RY)|exact F].
  rewrite HR. cbn [String.eqb rbind].
  destruct (average_maps (map cut maps) NX NY (x0 + half_if_gmx md * dx + NQ a * dx) (y0 + half_if_gmx md * dy + NQ b * dy) dx dy single_max) as (avg & EA & GA & _).
  - intros K. apply map_eq_nil in K. contradiction.
  - intros mk Hmk. apply in_map_iff in Hmk. destruct Hmk as (mk' & <- & Hmk). destruct (HI mk' Hmk) as (G & W & V). destruct RX as [RX1 _]. destruct RY as [RY1 _]. split; [apply (part_grid mk' nx ny); assumption|].
    split; intros q Hq; [apply W|apply V]; (apply (part_in mk' nx ny a NX b NY); [apply G|assumption|assumption|exact Hq]).
  - apply single_max_nonneg.
  - exists avg. split; [apply GA|]. rewrite EA. cbn [rbind of_option w_shape w_spacing]. unfold bins_info. cbn [w_origin w_shape w_spacing fst snd].
    rewrite <- Nat2Z.inj_mul, !Nat2Z.id. reflexivity.
Qed.
Lemma div_less a c : (0 < a)%nat -> c <> 1%nat -> c <> 0%nat -> (a / c < a)%nat.
Proof. intros. apply Nat.div_lt; lia. Qed.
(** Refuted: combining bins (other than one by one) never works - the new number of bins does not fit to the old shape, which is
    used for writing. *)
Theorem C55_combine_refuted : forall ffuel fuel ao quiet d base output o n M rolling nx ny x0 y0 dx dy md m cx cy,
  all_set d base output o ffuel n M rolling -> series fuel d base o n nx ny x0 y0 dx dy md m -> (0 < bundles n M rolling)%nat ->
  a_combine ao = Some (cx, cy) -> a_recenter ao = ""%string -> a_super ao = None ->
  (forall i, (i < nx)%nat -> in_range (a_xlim ao) (x0 + half_if_gmx md * dx + NQ i * dx)) -> (forall j, (j < ny)%nat -> in_range (a_ylim ao) (y0 + half_if_gmx md * dy + NQ j * dy)) ->
  (cx <> 0)%nat -> (cy <> 0)%nat -> (cx, cy) <> (1, 1)%nat ->
  exists d', average ffuel fuel ao quiet d base output (Z.of_nat M) rolling o = (d', Some IndexErr) /\ aborted d d' output o M rolling None.
Proof.
  intros ffuel fuel ao quiet d base output o n M rolling nx ny x0 y0 dx dy md m cx cy HA HS Hb HC HR HSu HX HY Hcx Hcy Hc. pose proof HA as (Hw & HM & _).
  destruct (first_average fuel ao d base o n nx ny x0 y0 dx dy md m M rolling 0 nx 0 ny HS HM Hb) as (avg & LA & EA); [|  |exact HR|].
  { split; [lia|]. intros i Hi. split; [lia|]. intros _. apply HX. exact Hi. }
  { split; [lia|]. intros i Hi. split; [lia|]. intros _. apply HY. exact Hi. }
  rewrite HC, HSu in EA. rewrite combine_form in EA; [|exact Hcx|exact Hcy|exact LA]. cbn [rbind fst shape snd] in EA.
  destruct (first_group ffuel fuel ao quiet d base output o n M rolling HA Hb) as (_ & K & _). eapply K; [exact EA|]. apply gmx_wrong_size. cbn [g_shape w_shape fst snd]. rewrite !Nat2Z.id, grid_length.
  destruct HS as (_ & _ & _ & _ & _ & _ & _ & H0). assert (0 < nx /\ 0 < ny)%nat as [H1 H2] by lia.
  pose proof (Nat.div_le_upper_bound nx cx nx Hcx ltac:(nia)). pose proof (Nat.div_le_upper_bound ny cy ny Hcy ltac:(nia)).
  destruct (Nat.eq_dec cx 1) as [->|N1].
  - assert (cy <> 1)%nat as N2 by congruence. pose proof (div_less ny cy H2 N2 Hcy). nia.
  - pose proof (div_less nx cx H1 N1 Hcx). pose proof (Nat.mul_le_mono_l (ny / cy) ny (nx / cx) ltac:(assumption)). assert (nx / cx * ny < nx * ny)%nat by (apply Nat.mul_lt_mono_pos_r; assumption). lia.
Qed.
Print Assumptions C55_combine_refuted.
(** Refuted: cutting off bins never works without recentring, for the same reason. *)
Theorem C55_cut_refuted : forall ffuel fuel ao quiet d base output o n M rolling nx ny x0 y0 dx dy md m i j,
  all_set d base output o ffuel n M rolling -> series fuel d base o n nx ny x0 y0 dx dy md m -> (0 < bundles n M rolling)%nat ->
  a_combine ao = None -> a_recenter ao = ""%string -> a_super ao = None -> 0 < dx -> 0 < dy -> (i < nx)%nat -> (j < ny)%nat ->
  ~ (in_range (a_xlim ao) (x0 + half_if_gmx md * dx + NQ i * dx) /\ in_range (a_ylim ao) (y0 + half_if_gmx md * dy + NQ j * dy)) ->
  exists d', average ffuel fuel ao quiet d base output (Z.of_nat M) rolling o = (d', Some IndexErr) /\ aborted d d' output o M rolling None.
Proof.
  intros ffuel fuel ao quiet d base output o n M rolling nx ny x0 y0 dx dy md m i j HA HS Hb HC HR HSu Hdx Hdy Hi Hj Hout. pose proof HA as (Hw & HM & _).
  destruct (range_columns_exist (a_xlim ao) (x0 + half_if_gmx md * dx) dx nx Hdx) as (a & NX & RX). destruct (range_columns_exist (a_ylim ao) (y0 + half_if_gmx md * dy) dy ny Hdy) as (b & NY & RY).
  destruct (first_average fuel ao d base o n nx ny x0 y0 dx dy md m M rolling a NX b NY HS HM Hb RX RY HR) as (avg & LA & EA). rewrite HC, HSu in EA. cbn [rbind] in EA.
  destruct (first_group ffuel fuel ao quiet d base output o n M rolling HA Hb) as (_ & K & _). eapply K; [exact EA|]. apply gmx_wrong_size. cbn [g_shape w_shape fst snd]. rewrite !Nat2Z.id, LA.
  destruct RX as [RX1 RX2]. destruct RY as [RY1 RY2]. assert (NX <= nx /\ NY <= ny)%nat as [LX LY] by lia.
  pose proof (Nat.mul_le_mono_l NY ny NX LY). destruct (Nat.eq_dec NX nx) as [->|N1]; [|assert (NX * ny < nx * ny)%nat by (apply Nat.mul_lt_mono_pos_r; lia); lia].
  destruct (Nat.eq_dec NY ny) as [->|N2]; [|assert (nx * NY < nx * ny)%nat by (apply Nat.mul_lt_mono_pos_l; lia); lia].
  exfalso. apply Hout. split; [apply RX2; [exact Hi|lia]|apply RY2; [exact Hj|lia]].
Qed.
Print Assumptions C55_cut_refuted.
(** Refuted: supersampling never works; the output is missing, or empty. *)
Theorem C55_supersample_refuted : forall ffuel fuel ao quiet d base output o n M rolling s,
  all_set d base output o ffuel n M rolling -> (0 < bundles n M rolling)%nat -> a_super ao = Some s ->
  exists d' e, average ffuel fuel ao quiet d base output (Z.of_nat M) rolling o = (d', Some e) /\
    (d' = d \/ exists r, aborted d d' output o M rolling r /\ (r = None \/ r = Some ""%string)).
Proof.
  intros ffuel fuel ao quiet d base output o n M rolling s HA Hb Hs.
  destruct (first_group ffuel fuel ao quiet d base output o n M rolling HA Hb) as (K1 & _ & K3). cbv zeta in *.
  destruct (average_group fuel ao (map (fun k => option_map bytes_of (lookup (files d) (src base o k))) (bundle o M rolling 0))) as [[b w]|e] eqn:EG.
  - assert (w_origin w = None) as Ho.
    { unfold average_group in EG. destruct (read_group _ _ _) as [maps|]; [|discriminate EG]. cbn [rbind] in EG. destruct maps as [|[[? ?] mod0] maps]; [discriminate EG|].
      destruct (negb _) in EG; [discriminate EG|]. match type of EG with rbind ?t _ = _ => destruct t as [[data info]|]; [|discriminate EG] end. cbn [rbind] in EG.
      match type of EG with rbind ?t _ = _ => destruct t as [avg|]; [|discriminate EG] end. cbn [rbind] in EG.
      match type of EG with rbind ?t _ = _ => destruct t as [avg1|]; [|discriminate EG] end. cbn [rbind] in EG.
      match type of EG with rbind ?t _ = _ => destruct t as [avg2|]; [|discriminate EG] end. cbn [rbind] in EG. rewrite Hs in EG.
      match type of EG with rbind ?t _ = _ => destruct t as [f|]; [|discriminate EG] end. cbn [rbind] in EG. injection EG as <- <-. reflexivity. }
    destruct (K3 b w eq_refl Ho) as (d' & e & r & E & A & R). exists d', e. split; [exact E|]. right. exists r. split; assumption.
  - exists d, e. split; [apply K1; reflexivity|]. left. reflexivity.
Qed.
Print Assumptions C55_supersample_refuted.

(** ** Recentring *)
Lemma recentre_none maps values : (forall m, In m maps -> m <> []) -> length maps = length values -> (forall m, In m maps -> length m = length (hd [] maps)) -> In None values ->
  recenter_maps maps values = Err TypeErr.
Proof.
  intros Hne L HL HN. unfold recenter_maps. rewrite L, Nat.eqb_refl. cbn [negb]. destruct maps as [|m0 ms]; [destruct values; [destruct HN|discriminate L]|].
  assert (forallb (fun m => Nat.eqb (length m) (length m0)) (m0 :: ms) = true) as ->. { apply forallb_forall. intros m Hm. apply Nat.eqb_eq. apply HL. exact Hm. }
  cbn [negb]. clear HL. assert (rmapM recentred_xs (combine (m0 :: ms) values) = Err TypeErr) as ->; [|reflexivity]. revert L Hne. generalize (m0 :: ms). clear m0 ms. intros l. revert values HN.
  induction l as [|m l IH]; intros values HN L Hne; [destruct values; [destruct HN|discriminate L]|]. destruct values as [|v vs]; [discriminate L|]. cbn [combine rmapM].
  assert (exists x, list_min (map bX m) = Some x) as [x Ex]. { destruct (list_min (map bX m)) as [x|] eqn:E; [exists x; reflexivity|]. apply list_min_none in E. apply map_eq_nil in E. exfalso. apply (Hne m); [left; reflexivity|exact E]. }
  unfold recentred_xs at 1. cbn [fst snd]. rewrite Ex. cbn [of_option rbind]. destruct v as [v|]; [|reflexivity]. destruct HN as [HN|HN]; [discriminate HN|].
  assert (rmapM recentred_xs (combine l vs) = Err TypeErr) as -> by (apply IH; [exact HN|cbn in L; lia|intros m' Hm'; apply Hne; right; exact Hm']).
  destruct (qdiff (unique (map bX m))); reflexivity.
Qed.
(** Refuted: if some frame of the first bundle has no position (a drop which is not found), the run ends with a TypeError. *)
Theorem C55_no_position_refuted : forall ffuel fuel ao quiet d base output o n M rolling nx ny x0 y0 dx dy md m (r : Z -> option Qc) k0,
  all_set d base output o ffuel n M rolling -> series fuel d base o n nx ny x0 y0 dx dy md m -> (0 < bundles n M rolling)%nat ->
  a_xlim ao = (None, None) -> a_ylim ao = (None, None) -> a_recenter ao <> ""%string ->
  (forall k, In k (bundle o M rolling 0) -> recenter_value ao (m k) = Ok (r k)) -> In k0 (bundle o M rolling 0) -> r k0 = None ->
  average ffuel fuel ao quiet d base output (Z.of_nat M) rolling o = (d, Some TypeErr).
Proof.
  intros ffuel fuel ao quiet d base output o n M rolling nx ny x0 y0 dx dy md m r k0 HA HS Hb LX LY HR HV Hk Hk0. pose proof HA as (Hw & HM & _).
  destruct (first_group ffuel fuel ao quiet d base output o n M rolling HA Hb) as (K & _). apply K. clear K.
  destruct (series_files _ _ _ _ _ _ _ _ _ _ _ _ _ M rolling 0 HS HM Hb) as (fs & E & F). rewrite E.
  pose proof (fun mk => series_in _ _ _ _ _ _ _ _ _ _ _ _ _ M rolling 0 mk HS HM Hb) as HI. pose proof HS as (_ & Hx & Hy & S1 & S2 & S3 & S4 & H0).
  rewrite (group_maps_all fuel ao fs (map m (bundle o M rolling 0)) (fun x => x) nx ny x0 y0 dx dy md); [| | |exact F].
  - destruct (String.eqb_spec (a_recenter ao) "") as [|_]; [contradiction|]. rewrite map_id.
    assert (rmapM (recenter_value ao) (map m (bundle o M rolling 0)) = Ok (map r (bundle o M rolling 0))) as ->.
    { clear - HV. revert HV. generalize (bundle o M rolling 0). intros l HV. induction l as [|k l IH]; [reflexivity|]. cbn [map rmapM]. rewrite (HV k (or_introl eq_refl)). cbn [rbind]. rewrite IH; [reflexivity|]. intros k' Hk'. apply HV. right. exact Hk'. }
    cbn [rbind]. rewrite recentre_none; [reflexivity| | | |].
    + intros mk Hmk En. destruct (HI mk Hmk) as ((L & _) & _). rewrite En in L. cbn in L. lia.
    + rewrite !map_length. reflexivity.
    + intros mk Hmk. rewrite (proj1 (proj1 (HI mk Hmk))). destruct (map m (bundle o M rolling 0)) as [|m0 ms] eqn:Em; [destruct Hmk|]. cbn [hd]. rewrite (proj1 (proj1 (HI m0 (or_introl eq_refl)))). reflexivity.
    + rewrite <- Hk0. apply in_map. exact Hk.
  - intros K. apply map_eq_nil in K. exact (bundle_nonempty o M rolling 0 HM K).
  - intros mk _. unfold cut_to, limited. rewrite LX, LY. reflexivity.
Qed.
Print Assumptions C55_no_position_refuted.
(** Refuted: the positions read from an output file are half a bin from the positions [X], [Y] of the recentred bins, which are
    written as the origin (C55_recentred_files_partial). *)
Theorem C55_recentred_positions_refuted : forall fuel file w NY X Y dx dy rr, map_file fuel file w NY X Y dx dy rr -> guess_read_module (Some file) = GmxModule ->
  forall i j, (i < w)%nat -> (j < NY)%nat -> let b := nth (i * NY + j) rr bin0 in bX b = (X + NQ i * dx) + dx / ZQ 2 /\ bY b = (Y + NQ j * dy) + dy / ZQ 2.
Proof.
  intros fuel file w NY X Y dx dy rr HR G i j Hi Hj. pose proof (map_file_grid _ _ _ _ _ _ _ _ _ HR) as B. cbv zeta in *. rewrite G in B.
  destruct (proj2 B i j Hi Hj) as [-> ->]. unfold Qcdiv. change (/ ZQ 2) with (Q2Qc (1 # 2)). split; ring.
Qed.
Print Assumptions C55_recentred_positions_refuted.
(** Other names of positions raise ValueError before anything is written. *)
Theorem C55_unknown_position : forall ffuel fuel ao quiet d base output o n M rolling nx ny x0 y0 dx dy md m,
  all_set d base output o ffuel n M rolling -> series fuel d base o n nx ny x0 y0 dx dy md m -> (0 < bundles n M rolling)%nat ->
  a_xlim ao = (None, None) -> a_ylim ao = (None, None) -> ~ In (a_recenter ao) [""; "right"; "left"; "com"]%string ->
  average ffuel fuel ao quiet d base output (Z.of_nat M) rolling o = (d, Some ValueErr).
Proof.
  intros ffuel fuel ao quiet d base output o n M rolling nx ny x0 y0 dx dy md m HA HS Hb LX LY HR. pose proof HA as (Hw & HM & _).
  destruct (first_group ffuel fuel ao quiet d base output o n M rolling HA Hb) as (K & _). apply K. clear K.
  destruct (series_files _ _ _ _ _ _ _ _ _ _ _ _ _ M rolling 0 HS HM Hb) as (fs & E & F). rewrite E.
  assert (map m (bundle o M rolling 0) <> []) as Hne by (intros K; apply map_eq_nil in K; exact (bundle_nonempty o M rolling 0 HM K)).
  rewrite (group_maps_all fuel ao fs (map m (bundle o M rolling 0)) (fun x => x) nx ny x0 y0 dx dy md Hne); [| |exact F].
  - destruct (map m (bundle o M rolling 0)) as [|m0 ms]; [congruence|]. cbn [map rmapM]. unfold recenter_value. cbn in HR.
    repeat match goal with |- context [String.eqb ?a ?b] => destruct (String.eqb_spec a b) as [Eq|_]; [exfalso; apply HR; rewrite Eq; tauto|] end. reflexivity.
  - intros mk _. unfold cut_to, limited. rewrite LX, LY. reflexivity.
Qed.
Print Assumptions C55_unknown_position.

(** ** The positions *)
(** 'com': the mean position of the mass along x. *)
Theorem C55_centre : forall ao data v, a_recenter ao = "com"%string -> recenter_value ao data = Ok (Some v) -> v * total bM data = total (fun b => bX b * bM b) data.
Proof.
  intros ao data v HR HV. unfold recenter_value in HV. rewrite HR in HV. cbn [String.eqb Ascii.eqb Bool.eqb] in HV.
  destruct (Sample.sample_center_of_mass data) as [[x y]|] eqn:EC; [|discriminate HV]. cbn in HV. injection HV as <-.
  assert (SampleProps.mass data <> 0) as H0 by (intros E; rewrite (SampleProps.C44_no_mass data E) in EC; discriminate EC).
  destruct (SampleProps.C44_is_weighted_mean data H0) as (x' & y' & E & EX & _). rewrite EC in E. injection E as <- <-. exact EX.
Qed.
Print Assumptions C55_centre.
(** 'left' and 'right': the outermost cell of the liquid in the lowest layer which has any (search from the walls, no floor given). *)
Theorem C55_edge_positions : forall ao data c, a_longest ao = false -> a_floor ao = None -> a_cutoff ao = Some c -> In (a_recenter ao) ["left"; "right"]%string ->
  let liquid := droplet_cell bM data c (a_radius ao) (a_bins ao) in
  exists v, recenter_value ao data = Ok v /\
  match v with
  | None => forall i, ~ liquid i
  | Some x => exists y i, (forall y' j, liquid j -> in_layer data y' j -> y <= y') /\ x = x_of data i /\
                if String.eqb (a_recenter ao) "left" then leftmost data liquid y i else rightmost data liquid y i
  end.
Proof.
  intros ao data c HL HF HC HR liquid. unfold recenter_value.
  assert (exists pairs ys, Spreading.get_spreading_edges bM data Flow.finfo0 (a_cutoff ao) (Some (a_radius ao)) (a_bins ao) (a_longest ao) (a_floor ao) =
     Ok (option_map (fun p => (bX (nth (fst p) data bin0), bX (nth (snd p) data bin0))) (hd_error pairs)) /\ increasing ys /\
     (forall y, In y ys <-> exists i, in_layer data y i /\ liquid i) /\
     Forall2 (fun y p => leftmost data liquid y (fst p) /\ rightmost data liquid y (snd p)) ys pairs) as (pairs & ys & -> & HI & HY & HP).
  { rewrite HL, HF, HC. destruct (InterfaceP.walls_spec bM c (a_radius ao) data (a_bins ao) None None) as (pairs & ys & EW & HI & HY & HP). exists pairs, ys.
    split; [|split; [exact HI|split; [|exact HP]]].
    - unfold Spreading.get_spreading_edges. cbn [Spreading.get_floor_height rbind]. unfold Interface.get_interface. cbn [Interface.cutoff_opt Interface.radius_opt Interface.longest_opt Interface.bins_opt Interface.ylims_opt fst snd Interface.get_cutoff Interface.get_radius rbind].
      rewrite EW. cbn [rbind]. destruct pairs as [|[l r] pairs]; reflexivity.
    - intros y. rewrite HY. split; [intros [_ K]; exact K|]. intros K. split; [|exact K]. split; intros z Ez; discriminate Ez. }
  assert (forall i p, nth_error data i = Some p -> bX (nth i data bin0) = x_of data i) as EX by (intros i p Hp; unfold x_of; rewrite (nth_error_nth _ _ _ Hp), Hp; reflexivity).
  destruct HP as [|y [l r] ys pairs [H1 H2] HP].
  - exists None. split; [destruct HR as [<-|[<-|[]]]; reflexivity|]. intros i Hi. pose proof Hi as (b & js & Hb & _). assert (In (bY b) []) as [].
    apply HY. exists i. split; [exists b; split; [exact Hb|reflexivity]|exact Hi].
  - assert (forall y' j, liquid j -> in_layer data y' j -> y <= y') as HB.
    { intros y' j Hj Hl. assert (In y' (y :: ys)) as K by (apply HY; exists j; split; assumption). destruct K as [<-|K]; [apply Qcle_refl|].
      apply qc_lt_le. inversion HI as [|? ? HIy ?]; subst. apply HIy. exact K. }
    pose proof H1 as (_ & (b1 & E1 & _) & _). pose proof H2 as (_ & (b2 & E2 & _) & _). cbn [fst snd] in *.
    destruct HR as [<-|[<-|[]]]; cbn [String.eqb Ascii.eqb Bool.eqb hd_error option_map rbind fst snd]; eexists; (split; [reflexivity|]); exists y; [exists l|exists r]; (split; [exact HB|]); (split; [eapply EX; eassumption|]); assumption.
Qed.
Print Assumptions C55_edge_positions.

(** Frames of both formats in a bundle are refused, before anything is written. *)
Theorem C55_mixed_formats : forall ffuel fuel ao quiet d base output o n M rolling k1 k2,
  all_set d base output o ffuel n M rolling -> (0 < bundles n M rolling)%nat -> a_xlim ao = (None, None) -> a_ylim ao = (None, None) ->
  (forall k, In k (bundle o M rolling 0) -> exists c nx ny x0 y0 dx dy m, lookup (files d) (src base o k) = Some c /\ map_file fuel (bytes_of c) nx ny x0 y0 dx dy m) ->
  In k1 (bundle o M rolling 0) -> In k2 (bundle o M rolling 0) ->
  guess_read_module (option_map bytes_of (lookup (files d) (src base o k1))) <> guess_read_module (option_map bytes_of (lookup (files d) (src base o k2))) ->
  average ffuel fuel ao quiet d base output (Z.of_nat M) rolling o = (d, Some AssertErr).
Proof.
  intros ffuel fuel ao quiet d base output o n M rolling k1 k2 HA Hb LX LY HF H1 H2 HD.
  destruct (first_group ffuel fuel ao quiet d base output o n M rolling HA Hb) as (K & _). apply K. clear K. unfold average_group.
  set (f := fun k => option_map bytes_of (lookup (files d) (src base o k))) in *. fold (f k1) (f k2) in HD.
  assert (exists maps, read_group fuel ao (map f (bundle o M rolling 0)) = Ok maps /\ forall k, In k (bundle o M rolling 0) -> exists a, In (a, guess_read_module (f k)) maps) as (maps & -> & HG).
  { clear - HF LX LY. unfold read_group. match goal with |- context [rmapM ?F _] => set (g := F) end.
    assert (forall k, In k (bundle o M rolling 0) -> exists a, g (f k) = Ok (a, guess_read_module (f k))) as HO.
    { intros k Hk. destruct (HF k Hk) as (c & nx & ny & x0 & y0 & dx & dy & m & Lc & R & L). unfold g. assert (f k = Some (bytes_of c)) as -> by (unfold f; rewrite Lc; reflexivity). rewrite R. cbn [rbind].
      rewrite finite_columns. cbn [rbind]. unfold finite_info. cbn [m_spacing m_shape m_origin fst snd finite rbind]. rewrite bins_columns. cbn [rbind]. unfold limited. rewrite LX, LY. cbn [Sample.no_limit andb negb rbind].
      eexists. reflexivity. }
    clear HF. induction (bundle o M rolling 0) as [|k l IH]; [exists []; split; [reflexivity|intros k []]|].
    destruct IH as (maps & E & H); [intros k' Hk'; apply HO; right; exact Hk'|]. destruct (HO k (or_introl eq_refl)) as (a & Ea). exists ((a, guess_read_module (f k)) :: maps). cbn [map rmapM]. rewrite Ea. cbn [rbind]. rewrite E. split; [reflexivity|].
    intros k' [<-|Hk']; [exists a; left; reflexivity|]. destruct (H k' Hk') as (a' & Ha'). exists a'. right. exact Ha'. }
  cbn [rbind]. destruct (HG k1 H1) as (a1 & I1). destruct (HG k2 H2) as (a2 & I2). destruct maps as [|[[? ?] mod0] maps]; [destruct I1|].
  destruct (forallb _ _) eqn:EB; [exfalso|reflexivity]. rewrite forallb_forall in EB. pose proof (EB _ I1) as B1. pose proof (EB _ I2) as B2. cbn [snd] in B1, B2. apply HD.
  destruct (guess_read_module (f k1)), (guess_read_module (f k2)), mod0; try reflexivity; discriminate.
Qed.
Print Assumptions C55_mixed_formats.
