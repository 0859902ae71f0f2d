(** Property C55: averaging files of maps (strata.average). *)
From Coq Require Import String Permutation.
From Verif.Base Require Import QcX Res Np ListX Sums Bytes.
From Verif.Model Require Import Bins Text Gmx Simple Formats Average.
From Verif.Model Require SimpleAverage Sample Spreading Interface Flow.
From Verif.Proofs Require InterfaceP.
From Verif.Props Require SampleProps.
From Verif.Model Require Import Utils.
From Verif.Spec Require Import FilesSpec DiskSpec MapSpec AverageSpec.
From Verif.Proofs Require Import UtilsFiles UtilsDisk UtilsTop TextP GmxP GmxRoundP SimpleP FormatsP SimpleAverageP RecentreP AverageFilesP AverageCutP.
From Verif.Props Require Import GmxProps SimpleProps FormatsProps.
Local Open Scope list_scope.

(** ** The setting *)
Definition start_of (o : fopts) : Z := match o_begin o with Some b => b | None => 1%Z end.
Definition ext_of (o : fopts) : string := match o_ext o with Some x => x | None => ".dat"%string end.
Definition outext_of (o : fopts) : string := match o_outext o with Some x => x | None => ext_of o end.
Definition src (base : string) (o : fopts) (k : Z) : path := os_path (fname base k (ext_of o)).
Definition dst (output : string) (o : fopts) (k : Z) : path := os_path (fname output k (outext_of o)).
(** The frames found are the [n] first ones: the numbers from the first one on for which there is a file. *)
Definition frames_found (d : disk) (base : string) (o : fopts) (n : nat) : Prop :=
  run_length (fun z => match o_end o with Some (Upto m) => (z <= m)%Z | _ => True end /\ exists_path d (src base o z) = true) (start_of o) n.
(** The numbers of the frames in bundle [i]. *)
Definition bundle (o : fopts) (M : nat) (rolling : bool) (i : nat) : list Z := numbers (bundle_start (start_of o) M rolling i) M.
(** No output is the input of a later bundle. *)
Definition separate (base output : string) (o : fopts) (n M : nat) (rolling : bool) : Prop :=
  forall i j K k, (i < j < bundles n M rolling)%nat -> bundle_output (start_of o) M rolling i K -> In k (bundle o M rolling j) -> dst output o K <> src base o k.
(** All frames are maps [m k] on the same grid and of the same format, with weights which are not negative and values which fit into the output format. *)
Definition series (fuel : nat) (d : disk) (base : string) (o : fopts) (n nx ny : nat) (x0 y0 dx dy : Qc) (md : module) (m : Z -> list bin) : Prop :=
  (forall k, (start_of o <= k < start_of o + Z.of_nat n)%Z -> exists c, lookup (files d) (src base o k) = Some c /\ guess_read_module (Some (bytes_of c)) = md /\
    map_file fuel (bytes_of c) nx ny x0 y0 dx dy (m k) /\ weights_nonneg (m k) /\ values_within single_max (m k)) /\
  (Z.of_nat nx < 2 ^ 64)%Z /\ (Z.of_nat ny < 2 ^ 64)%Z /\ six_decimal_number x0 /\ six_decimal_number y0 /\ six_decimal_number dx /\ six_decimal_number dy /\ (0 < nx * ny)%nat.
Definition all_set (d : disk) (base output : string) (o : fopts) (ffuel n M : nat) (rolling : bool) : Prop :=
  wf d /\ (0 < M)%nat /\ no_slash (outext_of o) /\ (n + 1 < ffuel)%nat /\ frames_found d base o n /\ separate base output o n M rolling.
(** What a run leaves on the disk: an output with content [P i file] for every bundle; no other existing file changes, and no content is lost. *)
Definition outputs (d d' : disk) (output : string) (o : fopts) (n M : nat) (rolling : bool) (P : nat -> bytes -> Prop) : Prop :=
  (forall i, (i < bundles n M rolling)%nat -> exists K file, bundle_output (start_of o) M rolling i K /\ lookup (files d') (dst output o K) = Some (string_of file) /\ P i file) /\
  (forall q, exists_path d q = true -> (forall i K, (i < bundles n M rolling)%nat -> bundle_output (start_of o) M rolling i K -> q <> dst output o K) -> lookup (files d') q = lookup (files d) q) /\
  exists written, List.length written = bundles n M rolling /\ Permutation (contents d') (contents d ++ written).

(** ** Proof of a run *)
Lemma bytes_string f : bytes_of (string_of f) = f.
Proof. apply list_ascii_of_string_of_list_ascii. Qed.
Lemma in_bundle o M rolling i n k : (0 < M)%nat -> (i < bundles n M rolling)%nat -> In k (bundle o M rolling i) -> (start_of o <= k < start_of o + Z.of_nat n)%Z.
Proof.
  intros HM Hi Hk. apply in_numbers in Hk. unfold bundle_start in Hk. unfold bundles in Hi. destruct rolling; [lia|].
  pose proof (Nat.mul_div_le n M ltac:(lia)). assert (i * M + M <= n)%nat by nia. lia.
Qed.
Lemma bundle_nonempty o M rolling i : (0 < M)%nat -> bundle o M rolling i <> [].
Proof. intros HM E. apply (f_equal (@List.length Z)) in E. unfold bundle in E. rewrite numbers_length in E. cbn in E. lia. Qed.
Lemma run_average ffuel fuel ao quiet d base output o n M rolling (P : nat -> bytes -> Prop) : all_set d base output o ffuel n M rolling ->
  (forall i, (i < bundles n M rolling)%nat -> exists b w og file, average_group fuel ao (map (fun k => option_map bytes_of (lookup (files d) (src base o k))) (bundle o M rolling i)) = Ok (b, w) /\
     w_origin w = Some og /\ gmx_write (dict_of_bins b) (mkGinfo (w_shape w) (w_spacing w) og) = Ok file /\ P i file) ->
  exists d', average ffuel fuel ao quiet d base output (Z.of_nat M) rolling o = (d', if quiet then Some UnboundErr else None) /\ outputs d d' output o n M rolling P.
Proof.
  intros (Hw & HM & Hs & Hf & Hr & Hsep) HP. unfold average.
  destruct (groups_run (fun s => exists_path d (os_path s)) base output M rolling o n HM) as (out0 & B0 & E0).
  { destruct Hr as [R1 R2]. unfold good. split; [intros k Hk; specialize (R1 k Hk)|intros K; apply R2]; unfold src in *; fold (ext_of o); fold (start_of o); destruct (o_end o) as [[|]|]; assumption. }
  rewrite (E0 ffuel Hf). fold (start_of o). fold (ext_of o) in *. fold (outext_of o) in *. fold (start_of o) in *.
  set (mk := fun i => (map (fun k => fname base k (ext_of o)) (numbers (bundle_start (start_of o) M rolling i) M), fname output (out0 + Z.of_nat i) (outext_of o))).
  set (cnt := bundles n M rolling) in *.
  assert (forall i, (i < cnt)%nat -> map (Average.content d) (fst (mk i)) = map (fun k => option_map bytes_of (lookup (files d) (src base o k))) (bundle o M rolling i)) as EC.
  { intros i Hi. unfold mk. cbn [fst]. rewrite map_map. reflexivity. }
  destruct (run_groups fuel ao (map mk (seq 0 cnt)) d Hw) as (d' & E & W & R & F & Wr & LW & PW).
  - rewrite map_map. cbn [mk snd]. apply FinFun.Injective_map_NoDup; [|apply seq_NoDup]. intros i j Hij. apply (os_path_fname_inj output (outext_of o)) in Hij; [lia|exact Hs].
  - assert (forall a c, (a + c <= cnt)%nat -> ForallOrdPairs (fun a b => forall s, In s (fst b) -> os_path (snd a) <> os_path s) (map mk (seq a c))) as K; [|apply (K 0%nat cnt); lia].
    intros a c. revert a. induction c as [|c IH]; intros a Hac; [constructor|]. cbn [seq map]. constructor; [|apply IH; lia].
    apply Forall_forall. intros g Hg s Hss. apply in_map_iff in Hg. destruct Hg as (j & <- & Hj). apply in_seq in Hj. unfold mk in Hss. cbn [fst] in Hss. apply in_map_iff in Hss. destruct Hss as (k & <- & Hk).
    apply (Hsep a j (out0 + Z.of_nat a)%Z k); [fold cnt; lia|apply B0|exact Hk].
  - intros g s Hg Hss. apply in_map_iff in Hg. destruct Hg as (j & <- & Hj). apply in_seq in Hj. unfold mk in Hss. cbn [fst] in Hss. apply in_map_iff in Hss. destruct Hss as (k & <- & Hk).
    pose proof (in_bundle o M rolling j n k HM ltac:(fold cnt; lia) Hk) as B. destruct Hr as [R1 _]. specialize (R1 (k - start_of o)%Z ltac:(lia)). replace (start_of o + (k - start_of o))%Z with k in R1 by lia. apply R1.
  - intros g Hg. apply in_map_iff in Hg. destruct Hg as (i & <- & Hi). apply in_seq in Hi. destruct (HP i ltac:(lia)) as (b & w & og & file & A1 & A2 & A3 & _). exists b, w, og, file. rewrite EC by lia. auto.
  - exists d'. rewrite E. split; [destruct quiet; reflexivity|]. split; [|split].
    + intros i Hi. destruct (R (mk i)) as (b & w & og & file & A1 & A2 & A3 & A4). { apply in_map. apply in_seq. fold cnt in Hi. lia. }
      destruct (HP i Hi) as (b' & w' & og' & file' & C1 & C2 & C3 & C4). rewrite EC in A1 by exact Hi. rewrite C1 in A1. injection A1 as <- <-. rewrite C2 in A2. injection A2 as <-. rewrite C3 in A3. injection A3 as <-.
      exists (out0 + Z.of_nat i)%Z, file'. split; [apply B0|]. split; [exact A4|exact C4].
    + intros q Hq Nq. apply F; [exact Hq|]. intros K. rewrite map_map in K. apply in_map_iff in K. destruct K as (i & Ei & Hi). apply in_seq in Hi. apply (Nq i (out0 + Z.of_nat i)%Z ltac:(fold cnt; lia) (B0 i)). symmetry. exact Ei.
    + exists Wr. split; [rewrite LW, map_length, seq_length; reflexivity|exact PW].
Qed.
Lemma series_files fuel d base o n nx ny x0 y0 dx dy md m M rolling i : series fuel d base o n nx ny x0 y0 dx dy md m -> (0 < M)%nat -> (i < bundles n M rolling)%nat ->
  exists fs, map (fun k => option_map bytes_of (lookup (files d) (src base o k))) (bundle o M rolling i) = map Some fs /\
    Forall2 (fun f mk => map_file fuel f nx ny x0 y0 dx dy mk /\ guess_read_module (Some f) = md) fs (map m (bundle o M rolling i)).
Proof.
  intros [HS _] HM Hi. assert (forall k, In k (bundle o M rolling i) -> (start_of o <= k < start_of o + Z.of_nat n)%Z) as HB by (intros k; apply in_bundle; assumption).
  induction (bundle o M rolling i) as [|k l IH]; [exists []; split; [reflexivity|constructor]|]. destruct IH as (fs & E & F); [intros; apply HB; right; assumption|].
  destruct (HS k (HB k (or_introl eq_refl))) as (c & Lc & G & MF & _). exists (bytes_of c :: fs). cbn [map]. rewrite Lc, E. split; [reflexivity|]. constructor; [split; assumption|exact F].
Qed.
Lemma series_in fuel d base o n nx ny x0 y0 dx dy md m M rolling i mk : series fuel d base o n nx ny x0 y0 dx dy md m -> (0 < M)%nat -> (i < bundles n M rolling)%nat -> In mk (map m (bundle o M rolling i)) ->
  column_grid mk nx ny (x0 + match md with GmxModule => Q2Qc (1 # 2) | SimpleModule => 0 end * dx) (y0 + match md with GmxModule => Q2Qc (1 # 2) | SimpleModule => 0 end * dy) dx dy /\
  weights_nonneg mk /\ values_within single_max mk.
Proof.
  intros [HS _] HM Hi Hm. apply in_map_iff in Hm. destruct Hm as (k & <- & Hk). destruct (HS k (in_bundle _ _ _ _ _ _ HM Hi Hk)) as (c & Lc & G & MF & W & V).
  split; [|split; assumption]. pose proof (map_file_grid _ _ _ _ _ _ _ _ _ MF) as K. cbv zeta in K. rewrite G in K. exact K.
Qed.

(** ** C55: plain averages *)
(** No combining, recentring or supersampling, and limits which contain all positions [x], [y]. *)
Definition plain_options (ao : aopts) (nx ny : nat) (X0 Y0 dx dy : Qc) : Prop :=
  a_combine ao = None /\ a_recenter ao = ""%string /\ a_super ao = None /\
  (forall i, (i < nx)%nat -> in_range (a_xlim ao) (X0 + NQ i * dx)) /\ (forall j, (j < ny)%nat -> in_range (a_ylim ao) (Y0 + NQ j * dy)).
Definition half_if_gmx (md : module) : Qc := match md with GmxModule => Q2Qc (1 # 2) | SimpleModule => 0 end.
Lemma plain_cut ao m nx ny X0 Y0 dx dy : (0 < nx * ny)%nat -> plain_options ao nx ny X0 Y0 dx dy -> column_grid m nx ny X0 Y0 dx dy -> cut_to ao m m.
Proof.
  intros H0 (_ & _ & _ & HX & HY) HG. rewrite <- (part_all m nx ny) at 2 by apply HG. apply (cut_to_part ao m nx ny X0 Y0 dx dy); [exact H0|exact HG| |].
  - split; [lia|]. intros i Hi. split; [lia|]. intros _. apply HX. exact Hi.
  - split; [lia|]. intros i Hi. split; [lia|]. intros _. apply HY. exact Hi.
Qed.
(** Every bundle of frames gets one output: a map with the grid of the frames, in which every bin has the average of the
    corresponding bins of the frames (to single precision; 0 without mass), if at least 29 cells (or none) have mass (C46).
    With [quiet] an exception is raised at the end. *)
Theorem C55_averaged_files_partial : forall ffuel fuel ao quiet d base output o n M rolling nx ny x0 y0 dx dy md m,
  all_set d base output o ffuel n M rolling -> series fuel d base o n nx ny x0 y0 dx dy md m ->
  plain_options ao nx ny (x0 + half_if_gmx md * dx) (y0 + half_if_gmx md * dy) dx dy ->
  (forall i, (i < bundles n M rolling)%nat -> let c := cells_with_mass (nx * ny) (map m (bundle o M rolling i)) in 29 <= c \/ c = 0)%nat ->
  exists d', average ffuel fuel ao quiet d base output (Z.of_nat M) rolling o = (d', if quiet then Some UnboundErr else None) /\
    outputs d d' output o n M rolling (fun i file => guess_read_module (Some file) = GmxModule /\
      forall fuel', (List.length file < fuel')%nat -> exists r, map_file fuel' file nx ny x0 y0 dx dy r /\
        forall p, (p < nx * ny)%nat -> exists b, averages (map (fun k => nth p (m k) bin0) (bundle o M rolling i)) b /\ held_as as_single b (nth p r bin0)).
Proof.
  intros ffuel fuel ao quiet d base output o n M rolling nx ny x0 y0 dx dy md m HA HS HP HC. apply run_average; [exact HA|]. intros i Hi. pose proof HA as (Hw & HM & _).
  destruct (series_files _ _ _ _ _ _ _ _ _ _ _ _ _ M rolling i HS HM Hi) as (fs & E & F). rewrite E. set (maps := map m (bundle o M rolling i)) in *.
  pose proof (fun mk => series_in _ _ _ _ _ _ _ _ _ _ _ _ _ M rolling i mk HS HM Hi) as HI. fold maps in HI. pose proof HS as (_ & Hx & Hy & S1 & S2 & S3 & S4 & H0).
  assert (maps <> []) as Hne by (unfold maps; intros K; apply map_eq_nil in K; exact (bundle_nonempty o M rolling i HM K)).
  destruct (group_average fuel ao fs maps nx ny x0 y0 dx dy md Hne) as (avg & EA & LA & VA & AA); [|apply HP|apply HP|apply HP|exact F|intros mk Hmk; apply HI; exact Hmk|].
  { intros mk Hmk. apply (plain_cut ao mk nx ny _ _ dx dy H0 HP). apply HI. exact Hmk. }
  destruct (store_map avg nx ny x0 y0 dx dy LA VA Hx Hy S1 S2 S3 S4) as (file & W & G & R).
  { rewrite (filled_cells avg maps (nx * ny) LA Hne AA). exact (HC i Hi). }
  eexists avg, _, (x0, y0), file. split; [exact EA|]. split; [reflexivity|]. split; [exact W|]. split; [exact G|]. intros fuel' Hf'. destruct (R fuel' Hf') as (r & MF & HR). exists r. split; [exact MF|].
  intros p Hp. exists (nth p avg bin0). split; [|apply HR; exact Hp]. specialize (AA p Hp). unfold maps in AA. rewrite map_map in AA. exact AA.
Qed.
Print Assumptions C55_averaged_files_partial.
(** The positions in files which hold maps of the same grid are the same if both are gmx files ... *)
Theorem C55_positions_kept : forall fuel fuel' f f' nx ny x0 y0 dx dy m r, map_file fuel f nx ny x0 y0 dx dy m -> map_file fuel' f' nx ny x0 y0 dx dy r ->
  guess_read_module (Some f) = GmxModule -> guess_read_module (Some f') = GmxModule -> same_coords m r.
Proof.
  intros fuel fuel' f f' nx ny x0 y0 dx dy m r HM HR G G'. pose proof (map_file_grid _ _ _ _ _ _ _ _ _ HM) as A. pose proof (map_file_grid _ _ _ _ _ _ _ _ _ HR) as B. cbv zeta in A, B. rewrite G in A. rewrite G' in B.
  eapply grid_same_coords; eassumption.
Qed.
Print Assumptions C55_positions_kept.
(** ... refuted if the frames are simple files: the output is moved by half a bin. *)
Theorem C55_simple_frames_moved_refuted : forall fuel fuel' f f' nx ny x0 y0 dx dy m r, map_file fuel f nx ny x0 y0 dx dy m -> map_file fuel' f' nx ny x0 y0 dx dy r ->
  guess_read_module (Some f) = SimpleModule -> guess_read_module (Some f') = GmxModule ->
  forall i j, (i < nx)%nat -> (j < ny)%nat -> let b := nth (i * ny + j) m bin0 in let b' := nth (i * ny + j) r bin0 in
    bX b' = bX b + dx / ZQ 2 /\ bY b' = bY b + dy / ZQ 2.
Proof.
  intros fuel fuel' f f' nx ny x0 y0 dx dy m r HM HR G G' i j Hi Hj. pose proof (map_file_grid _ _ _ _ _ _ _ _ _ HM) as A. pose proof (map_file_grid _ _ _ _ _ _ _ _ _ HR) as B. cbv zeta in *. rewrite G in A. rewrite G' in B.
  destruct (proj2 A i j Hi Hj) as [-> ->]. destruct (proj2 B i j Hi Hj) as [-> ->]. unfold Qcdiv. change (/ ZQ 2) with (Q2Qc (1 # 2)). split; ring.
Qed.
Print Assumptions C55_simple_frames_moved_refuted.

(** ** C55: recentred averages *)
(** Recentring, without combining or supersampling.  [r k] is the position found in frame [k] (C25, C58: 'left' and 'right'; C44: 'com'),
    after cutting it to the [NX] columns from [a] and [NY] rows from [b] inside of the limits. *)
Definition recentring (ao : aopts) (nx ny : nat) (X0 Y0 dx dy : Qc) (a NX b NY : nat) (m : Z -> list bin) (r : Z -> Qc) (frames : Z -> Prop) : Prop :=
  a_combine ao = None /\ a_recenter ao <> ""%string /\ a_super ao = None /\
  range_columns (a_xlim ao) X0 dx nx a NX /\ range_columns (a_ylim ao) Y0 dy ny b NY /\ (2 <= NX)%nat /\ (2 <= NY)%nat /\ 0 < dx /\ 0 < dy /\
  forall k, frames k -> recenter_value ao (part (m k) ny a NX b NY) = Ok (Some (r k)).
Lemma mapped_min {A} (f : A -> Z) l : l <> [] -> exists z, is_min (map f l) z.
Proof.
  induction l as [|x l IH]; [congruence|]. intros _. destruct l as [|y l].
  - exists (f x). split; [left; reflexivity|]. intros z [<-|[]]. lia.
  - destruct IH as (z & Hz1 & Hz2); [discriminate|]. exists (Z.min (f x) z). split.
    + change (map f (x :: y :: l)) with (f x :: map f (y :: l)). destruct (Z.min_spec (f x) z) as [[_ ->]|[_ ->]]; [left; reflexivity|right; exact Hz1].
    + intros w [<-|Hw]; [lia|]. specialize (Hz2 w Hw). lia.
Qed.
Lemma mapped_max {A} (f : A -> Z) l : l <> [] -> exists z, is_max (map f l) z.
Proof.
  induction l as [|x l IH]; [congruence|]. intros _. destruct l as [|y l].
  - exists (f x). split; [left; reflexivity|]. intros z [<-|[]]. lia.
  - destruct IH as (z & Hz1 & Hz2); [discriminate|]. exists (Z.max (f x) z). split.
    + change (map f (x :: y :: l)) with (f x :: map f (y :: l)). destruct (Z.max_spec (f x) z) as [[_ ->]|[_ ->]]; [right; exact Hz1|left; reflexivity].
    + intros w [<-|Hw]; [lia|]. specialize (Hz2 w Hw). lia.
Qed.
Lemma six_shift x d z : six_decimal_number x -> six_decimal_number d -> six_decimal_number (x - ZQ z * d).
Proof. intros [a ->] [b ->]. exists (a - z * b)%Z. rewrite ZQ_sub, ZQ_mul. unfold Qcdiv. ring. Qed.
Lemma six_plus x d z : six_decimal_number x -> six_decimal_number d -> six_decimal_number (x + NQ z * d).
Proof. intros [a ->] [b ->]. exists (a + Z.of_nat z * b)%Z. rewrite ZQ_add, ZQ_mul. unfold Qcdiv, NQ. ring. Qed.
(** The position is one inside of the map. *)
Lemma position_within ao data v lo hi : weights_nonneg data -> recenter_value ao data = Ok (Some v) -> (forall b, In b data -> lo <= bX b /\ bX b <= hi) -> lo <= v /\ v <= hi.
Proof.
  intros HW HV HB. unfold recenter_value in HV.
  assert (forall e, Spreading.get_spreading_edges bM data Flow.finfo0 (a_cutoff ao) (Some (a_radius ao)) (a_bins ao) (a_longest ao) (a_floor ao) = Ok (Some e) ->
    (lo <= fst e /\ fst e <= hi) /\ (lo <= snd e /\ snd e <= hi)) as HE.
  { intros e He. unfold Spreading.get_spreading_edges in He. destruct (Spreading.get_floor_height _ _) as [yf|]; [|discriminate He]. cbn [rbind] in He.
    destruct (Interface.get_interface _ _ _ _) as [pairs|] eqn:EI; [|discriminate He]. cbn [rbind] in He. destruct (find _ pairs) as [[l r]|] eqn:EF; [|discriminate He]. injection He as <-. cbn [fst snd].
    apply find_some in EF. destruct EF as [EF _]. unfold Interface.get_interface in EI. cbn [Interface.cutoff_opt Interface.radius_opt Interface.longest_opt Interface.bins_opt Interface.ylims_opt fst snd] in EI.
    destruct (Interface.get_cutoff _ _ _) as [[cutoff|]|]; cbn [rbind] in EI; [|injection EI as <-; destruct EF|discriminate EI]. cbn [Interface.get_radius rbind] in EI.
    destruct (a_longest ao); [discriminate EI|]. destruct (InterfaceP.walls_spec bM cutoff (a_radius ao) data (a_bins ao) yf yf) as (pairs' & ys & EW & _ & _ & F). rewrite EW in EI. injection EI as ->.
    clear EW. assert (exists b b', nth_error data l = Some b /\ nth_error data r = Some b') as (b & b' & Hb & Hb').
    { clear - EF F. induction F as [|y p ys ps H F IH]; [destruct EF|]. destruct EF as [->|EF]; [|apply IH; exact EF]. destruct H as ((_ & (b & Hb & _) & _) & (_ & (b' & Hb' & _) & _)). exists b, b'. split; assumption. }
    rewrite (nth_error_nth _ _ _ Hb), (nth_error_nth _ _ _ Hb'). apply nth_error_In in Hb, Hb'. split; apply HB; assumption. }
  destruct (String.eqb (a_recenter ao) "right").
  { destruct (Spreading.get_spreading_edges _ _ _ _ _ _ _ _) as [[e|]|]; cbn in HV; try discriminate HV. injection HV as <-. apply (HE e eq_refl). }
  destruct (String.eqb (a_recenter ao) "left").
  { destruct (Spreading.get_spreading_edges _ _ _ _ _ _ _ _) as [[e|]|]; cbn in HV; try discriminate HV. injection HV as <-. apply (HE e eq_refl). }
  destruct (String.eqb (a_recenter ao) "com"); [|discriminate HV]. destruct (Sample.sample_center_of_mass data) as [[x y]|] eqn:EC; [|discriminate HV]. cbn in HV. injection HV as <-.
  destruct data as [|b0 data]; [discriminate EC|].
  destruct (list_min (map bY (b0 :: data))) as [ylo|] eqn:E1; [|apply list_min_none in E1; discriminate E1]. destruct (list_max (map bY (b0 :: data))) as [yhi|] eqn:E2; [|apply list_max_none in E2; discriminate E2].
  apply list_min_spec in E1. apply list_max_spec in E2.
  destruct (SampleProps.C44_within (b0 :: data) x y lo hi ylo yhi) as (A & B & _); [intros b Hb; apply HW; exact Hb|exact EC| |split; assumption].
  intros b Hb. destruct (HB b Hb). split; [assumption|]. split; [assumption|]. split; [apply E1|apply E2]; apply in_map; exact Hb.
Qed.
Lemma column_within X0 dx NX v : 0 < dx -> (0 < NX)%nat -> X0 <= v -> v <= X0 + NQ (NX - 1) * dx -> (0 <= cnum X0 dx v < Z.of_nat NX)%Z.
Proof.
  intros Hdx HN H1 H2. unfold cnum. set (q := (v - X0) / dx).
  assert (0 <= q) as Q1 by (apply qle_div_iff; [exact Hdx|]; replace (0 * dx) with 0 by ring; qlra').
  assert (q <= NQ (NX - 1)) as Q2 by (apply qdiv_le_iff; [exact Hdx|]; qlra').
  pose proof (qround_near q) as N. apply qabs_le in N. destruct N as [N1 N2]. split.
  - destruct (Z.le_gt_cases 0 (qround q)) as [|C]; [assumption|exfalso]. assert (ZQ (qround q) <= ZQ (-1)) as L by (apply ZQ_le; lia). replace (ZQ (-1)) with (- (1)) in L by (apply Qc_is_canon; reflexivity). assert (Q2Qc (1 # 2) < 1) by reflexivity. qlra.
  - destruct (Z.lt_ge_cases (qround q) (Z.of_nat NX)) as [|C]; [assumption|exfalso]. assert (NQ (NX - 1) + 1 <= ZQ (qround q)) as L.
    { replace (NQ (NX - 1) + 1) with (ZQ (Z.of_nat NX)); [apply ZQ_le; exact C|]. unfold NQ. rewrite <- ZQ_1, <- ZQ_add. apply f_equal. lia. }
    assert (Q2Qc (1 # 2) < 1) by reflexivity. qlra.
Qed.
(** The column [c k] nearest to the position is moved to the origin; the columns which all frames of a bundle then have are averaged.
    The origin written is the first position [X], [Y]; [gmx] readers take it for the corner of the first bin, so that read positions are half a bin too large. *)
Theorem C55_recentred_files_partial : forall ffuel fuel ao quiet d base output o n M rolling nx ny x0 y0 dx dy md m a NX b NY r,
  let X0 := x0 + half_if_gmx md * dx in let Y0 := y0 + half_if_gmx md * dy in
  all_set d base output o ffuel n M rolling -> series fuel d base o n nx ny x0 y0 dx dy md m ->
  recentring ao nx ny X0 Y0 dx dy a NX b NY m r (fun k => start_of o <= k < start_of o + Z.of_nat n)%Z -> six_decimal_number X0 -> six_decimal_number Y0 ->
  exists c : Z -> Z, (forall k, nearest_column (X0 + NQ a * dx) dx (Some (r k)) (c k)) /\ (forall k, (start_of o <= k < start_of o + Z.of_nat n)%Z -> (0 <= c k < Z.of_nat NX)%Z) /\
  forall lo hi : nat -> Z, (forall i, (i < bundles n M rolling)%nat -> is_min (map c (bundle o M rolling i)) (lo i) /\ is_max (map c (bundle o M rolling i)) (hi i)) ->
  let w i := Z.to_nat (Z.of_nat NX - (hi i - lo i)) in
  let moved i k := shifted (part (m k) ny a NX b NY) (c k) (lo i) (w i) NY in
  (forall i, (i < bundles n M rolling)%nat -> let c := cells_with_mass (w i * NY) (map (moved i) (bundle o M rolling i)) in 29 <= c \/ c = 0)%nat ->
  exists d', average ffuel fuel ao quiet d base output (Z.of_nat M) rolling o = (d', if quiet then Some UnboundErr else None) /\
    outputs d d' output o n M rolling (fun i file => guess_read_module (Some file) = GmxModule /\
      let X i' := X0 + NQ a * dx + ZQ (i' - lo i) * dx in let Y j := Y0 + NQ b * dy + NQ j * dy in
      forall fuel', (List.length file < fuel')%nat -> exists rr, map_file fuel' file (w i) NY (X 0%Z) (Y 0%nat) dx dy rr /\
        forall p, (p < w i * NY)%nat -> exists av, averages (map (fun k => nth p (moved i k) bin0) (bundle o M rolling i)) av /\ held_as as_single av (nth p rr bin0)).
Proof.
  intros ffuel fuel ao quiet d base output o n M rolling nx ny x0 y0 dx dy md m a NX b NY r X0 Y0 HA HS (R1 & R2 & R3 & RX & RY & HNX & HNY & Hdx & Hdy & RV) SX SY.
  exists (fun k => cnum (X0 + NQ a * dx) dx (r k)). split; [intros k; apply (cnum_nearest _ dx dx Hdx Hdx)|].
  assert (forall k, (start_of o <= k < start_of o + Z.of_nat n)%Z -> (0 <= cnum (X0 + NQ a * dx) dx (r k) < Z.of_nat NX)%Z) as HCol.
  { intros k Hk. destruct HS as (HSk & _). destruct (HSk k Hk) as (c & _ & G & MF & W & _). pose proof (map_file_grid _ _ _ _ _ _ _ _ _ MF) as CG. cbv zeta in CG. rewrite G in CG. change (match md with GmxModule => Q2Qc (1 # 2) | SimpleModule => 0 end) with (half_if_gmx md) in CG. fold X0 Y0 in CG.
    destruct RX as [RX1 _]. destruct RY as [RY1 _]. pose proof (part_grid (m k) nx ny X0 Y0 dx dy a NX b NY CG RX1 RY1) as [PL PG].
    apply column_within; [exact Hdx|lia| |]; (apply (position_within ao (part (m k) ny a NX b NY) (r k) (X0 + NQ a * dx) (X0 + NQ a * dx + NQ (NX - 1) * dx)); [intros q Hq; apply W; apply (part_in (m k) nx ny a NX b NY); [apply CG|assumption|assumption|exact Hq]|apply RV; exact Hk|]);
      (intros q Hq; apply (In_nth _ _ bin0) in Hq; destruct Hq as (p & Hp & <-); rewrite PL in Hp; assert (p = p / NY * NY + p mod NY)%nat as Ep by (rewrite Nat.mul_comm; apply Nat.div_mod; lia);
       assert (p / NY < NX)%nat as P1 by (apply Nat.div_lt_upper_bound; lia); pose proof (Nat.mod_upper_bound p NY ltac:(lia)) as P2; destruct (PG _ _ P1 P2) as [-> _] || (rewrite Ep; destruct (PG _ _ P1 P2) as [-> _]);
       assert (0 <= NQ (p / NY) * dx) by (apply qmult_nonneg; [apply NQ_nonneg|apply qc_lt_le; exact Hdx]);
       assert (NQ (p / NY) * dx <= NQ (NX - 1) * dx) by (apply Qcmult_le_compat_r; [unfold NQ; apply ZQ_le; lia|apply qc_lt_le; exact Hdx]);
       generalize dependent (NQ (p / NY) * dx); generalize dependent (NQ (NX - 1) * dx); intros; split; qlra'). }
  split; [exact HCol|]. intros lo hi HLH w moved HC.
  apply run_average; [exact HA|]. intros i Hi. pose proof HA as (Hw & HM & _). destruct (HLH i Hi) as (Hlo & Hhi).
  assert (hi i - lo i < Z.of_nat NX)%Z as Hlt.
  { destruct Hlo as [Hlo _]. destruct Hhi as [Hhi _]. apply in_map_iff in Hlo, Hhi. destruct Hlo as (k1 & E1 & K1). destruct Hhi as (k2 & E2 & K2).
    pose proof (HCol k1 (in_bundle _ _ _ _ _ _ HM Hi K1)). pose proof (HCol k2 (in_bundle _ _ _ _ _ _ HM Hi K2)). lia. }
  destruct (series_files _ _ _ _ _ _ _ _ _ _ _ _ _ M rolling i HS HM Hi) as (fs & E & F). rewrite E.
  pose proof (fun mk => series_in _ _ _ _ _ _ _ _ _ _ _ _ _ M rolling i mk HS HM Hi) as HI. change (match md with GmxModule => Q2Qc (1 # 2) | SimpleModule => 0 end) with (half_if_gmx md) in HI. fold X0 Y0 in HI.
  pose proof HS as (HSk & Hx & Hy & S1 & S2 & S3 & S4 & H0).
  assert (bundle o M rolling i <> []) as Hneb by (apply bundle_nonempty; exact HM).
  assert (map m (bundle o M rolling i) <> []) as Hne by (intros K; apply map_eq_nil in K; contradiction).
  (* a position for every map; equal maps have equal positions *)
  set (pos := fun mk => match recenter_value ao (part mk ny a NX b NY) with Ok (Some v) => v | _ => 0 end).
  assert (forall k, In k (bundle o M rolling i) -> pos (m k) = r k) as Hpos.
  { intros k Hk. unfold pos. rewrite (RV k (in_bundle _ _ _ _ _ _ HM Hi Hk)). reflexivity. }
  assert (map (fun mk => cnum (X0 + NQ a * dx) dx (pos mk)) (map m (bundle o M rolling i)) = map (fun k => cnum (X0 + NQ a * dx) dx (r k)) (bundle o M rolling i)) as Ec.
  { rewrite map_map. apply map_ext_in. intros k Hk. rewrite (Hpos k Hk). reflexivity. }
  pose proof (group_recentred fuel ao fs (map m (bundle o M rolling i)) (fun mk => part mk ny a NX b NY) nx ny x0 y0 dx dy md pos NX NY (X0 + NQ a * dx) (Y0 + NQ b * dy) Hne) as GR.
  specialize (GR ltac:(intros mk Hmk; apply (cut_to_part ao mk nx ny X0 Y0 dx dy a NX b NY H0); [apply HI; exact Hmk|exact RX|exact RY]) R1 R3 R2 HNX HNY Hdx Hdy F).
  assert (forall mk, In mk (map m (bundle o M rolling i)) -> column_grid (part mk ny a NX b NY) NX NY (X0 + NQ a * dx) (Y0 + NQ b * dy) dx dy /\ weights_nonneg (part mk ny a NX b NY) /\
    values_within single_max (part mk ny a NX b NY) /\ recenter_value ao (part mk ny a NX b NY) = Ok (Some (pos mk))) as HW.
  { intros mk Hmk. destruct (HI mk Hmk) as (G & W & V). destruct RX as [RX1 _]. destruct RY as [RY1 _]. split; [apply (part_grid mk nx ny X0 Y0); assumption|].
    split; [intros q Hq; apply W; apply (part_in mk nx ny a NX b NY); [apply G|assumption|assumption|exact Hq]|]. split; [intros q Hq; apply V; apply (part_in mk nx ny a NX b NY); [apply G|assumption|assumption|exact Hq]|].
    apply in_map_iff in Hmk. destruct Hmk as (k & <- & Hk). rewrite (Hpos k Hk). apply RV. apply (in_bundle _ _ _ _ _ _ HM Hi Hk). }
  specialize (GR HW). cbv zeta in GR. specialize (GR (lo i) (hi i)). rewrite Ec in GR. specialize (GR Hlo Hhi). destruct (Z.ltb_spec (hi i - lo i) (Z.of_nat NX)) as [_|]; [|lia]. fold (w i) in GR.
  destruct GR as (avg & EA & LA & VA & AA).
  assert (forall p, map (fun mk => nth p (shifted (part mk ny a NX b NY) (cnum (X0 + NQ a * dx) dx (pos mk)) (lo i) (w i) NY) bin0) (map m (bundle o M rolling i)) = map (fun mk => nth p mk bin0) (map (moved i) (bundle o M rolling i))) as Em.
  { intros p. rewrite !map_map. apply map_ext_in. intros k Hk. unfold moved. rewrite (Hpos k Hk). reflexivity. }
  assert (forall p, (p < w i * NY)%nat -> averages (map (fun mk => nth p mk bin0) (map (moved i) (bundle o M rolling i))) (nth p avg bin0)) as AA' by (intros p Hp; rewrite <- Em; apply AA; exact Hp).
  assert (Z.of_nat (w i) < 2 ^ 64)%Z as Hwi. { unfold w. destruct RX as [RX1 _]. pose proof (proj2 Hhi (lo i) (proj1 Hlo)). lia. }
  assert (Z.of_nat NY < 2 ^ 64)%Z as HNYz by (destruct RY as [RY1 _]; lia).
  assert (X0 + NQ a * dx - ZQ (lo i) * dx = X0 + NQ a * dx + ZQ (0 - lo i) * dx) as EX by (rewrite ZQ_sub, ZQ_0; ring).
  assert (Y0 + NQ b * dy = Y0 + NQ b * dy + NQ 0 * dy) as EY by (rewrite NQ_0; ring).
  destruct (store_map avg (w i) NY (X0 + NQ a * dx - ZQ (lo i) * dx) (Y0 + NQ b * dy) dx dy LA VA Hwi HNYz) as (file & W & G & R); [apply six_shift; [apply six_plus; assumption|exact S3]|apply six_plus; assumption|exact S3|exact S4| |].
  { rewrite (filled_cells avg (map (moved i) (bundle o M rolling i)) (w i * NY) LA); [apply HC; exact Hi|intros K; apply map_eq_nil in K; contradiction|exact AA']. }
  eexists avg, _, _, file. split; [exact EA|]. split; [reflexivity|]. split; [exact W|]. split; [exact G|]. cbv zeta. intros fuel' Hf'. destruct (R fuel' Hf') as (rr & MF & HR).
  exists rr. rewrite <- EX, <- EY. split; [exact MF|]. intros p Hp. exists (nth p avg bin0). split; [|apply HR; exact Hp]. specialize (AA' p Hp). rewrite map_map in AA'. exact AA'.
Qed.
Print Assumptions C55_recentred_files_partial.
