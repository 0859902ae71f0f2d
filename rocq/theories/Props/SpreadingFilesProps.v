(** Properties C73-C76: spreading files. *)
From Coq Require Import String Ascii Permutation.
From Verif.Base Require Import QcX Res Np Bytes.
From Verif.Model Require Utils Flow Average PowerFit.
From Verif.Model Require Import Bins Text Gmx Simple Formats Table SpreadingView InterfaceFiles SpreadingFiles Spreading.
From Verif.Spec Require Import FilesSpec DiskSpec TableSpec SpreadingSpec.
From Verif.Proofs Require Import UtilsFiles UtilsDisk UtilsTop TextP SimpleP FormatsP TableP InterfaceFilesP SpreadingFilesP SpreadingReadP.
From Verif.Props Require Import SpreadingProps.
From Verif.Props Require InterfaceFilesProps.
Import InterfaceFilesProps(one_line).
Import Utils(disk, path, files, lookup, fopts, exists_path, fname, bound, Upto, Inf, o_begin, o_end, o_ext, o_outext).
Local Open Scope list_scope.
Local Notation length := List.length.

(** ** C73 *)
(** [f] is what a file shows: the edges found in its map and the width of the box (0 if there are no edges, as it is not used then). *)
Definition shows_frame (fuel : nat) (o : sopts) (d : disk) (name : string) (f : Spreading.frame) : Prop :=
  f_path f = name /\ exists b fi, flow_file fuel (Average.content d name) = Ok (b, fi) /\
    get_spreading_edges bM b fi (so_cutoff o) (Some (so_radius o)) (so_bins o) true (so_floor o) = Ok (f_edges f) /\
    match f_edges f with None => f_box f = 0 | Some _ => exists sy, Flow.size fi = Some (f_box f, sy) end.
Lemma shows_frame_of fuel o d name f : shows_frame fuel o d name f -> frame_of fuel o name (Average.content d name) = Ok f.
Proof.
  intros (HP & b & fi & HF & HE & HB). unfold frame_of. rewrite HF. cbn [rbind]. rewrite HE. cbn [rbind]. destruct f as [pth box [lr|]]; cbn [f_path f_box f_edges] in *; subst pth.
  - destruct HB as [sy ->]. reflexivity.
  - subst box. reflexivity.
Qed.
(** A file of which no frame can be made, and the exception. *)
Definition unusable (fuel : nat) (o : sopts) (d : disk) (name : string) (err : exn) : Prop :=
  flow_file fuel (Average.content d name) = Err err \/
  exists b fi, flow_file fuel (Average.content d name) = Ok (b, fi) /\
    (get_spreading_edges bM b fi (so_cutoff o) (Some (so_radius o)) (so_bins o) true (so_floor o) = Err err \/
     (exists lr, get_spreading_edges bM b fi (so_cutoff o) (Some (so_radius o)) (so_bins o) true (so_floor o) = Ok (Some lr)) /\ Flow.size fi = None /\ err = TypeErr).
Lemma unusable_of fuel o d name err : unusable fuel o d name err -> frame_of fuel o name (Average.content d name) = Err err.
Proof.
  unfold frame_of. intros [-> | (b & fi & -> & [HE | [(lr & HE) [HS ->]]])]; cbn [rbind]; [reflexivity|rewrite HE; reflexivity|]. rewrite HE. cbn [rbind]. rewrite HS. reflexivity.
Qed.
(** Every file is one or the other. *)
Theorem C73_frame_or_error : forall fuel o d name, (exists f, shows_frame fuel o d name f) \/ exists err, unusable fuel o d name err.
Proof.
  intros fuel o d name. unfold shows_frame, unusable. destruct (flow_file fuel (Average.content d name)) as [[b fi]|err] eqn:HF; [|right; exists err; left; reflexivity].
  destruct (get_spreading_edges bM b fi (so_cutoff o) (Some (so_radius o)) (so_bins o) true (so_floor o)) as [[lr|]|err] eqn:HE.
  - destruct (Flow.size fi) as [[sx sy]|] eqn:HS.
    + left. exists (mkFrame name sx (Some lr)). split; [reflexivity|]. exists b, fi. split; [reflexivity|]. split; [exact HE|]. exists sy. exact HS.
    + right. exists TypeErr. right. exists b, fi. split; [reflexivity|]. right. split; [exists lr; exact HE|]. auto.
  - left. exists (mkFrame name 0 None). split; [reflexivity|]. exists b, fi. split; [reflexivity|]. split; [exact HE|reflexivity].
  - right. exists err. right. exists b, fi. auto.
Qed.
Print Assumptions C73_frame_or_error.
(** The text of a file of rows: lines of four numbers with three decimals. *)
Definition spreading_text (header : list bytes) (rows : list row) : bytes :=
  flat_map (fun l => l ++ nl) header ++
  flat_map (fun r => fmt_fixed 3 (r_t r) ++ sp ++ fmt_fixed 3 (r_r r) ++ sp ++ fmt_fixed 3 (r_left r) ++ sp ++ fmt_fixed 3 (r_right r) ++ nl) rows.
Lemma spreading_text_eq header rows : spreading_text header rows = savetxt header (map row_numbers rows).
Proof.
  unfold spreading_text, savetxt. f_equal. induction rows as [|r rows IH]; [reflexivity|]. cbn [map flat_map]. rewrite IH. f_equal. unfold row_numbers. cbn [map join]. rewrite <- !app_assoc. reflexivity.
Qed.
(** The lines about the impact: the number of the first frame with edges times dt, and its file; only if none has been written by the process. *)
Definition impact_of (written : bool) (dt : Qc) (frames : list Spreading.frame) : list bytes :=
  if written then [] else match SpreadingP.first_detected frames 0 with Some (k, pth) => impact_lines (NQ k * dt) pth | None => [] end.
Definition detected (frames : list Spreading.frame) : bool := existsb (fun f => match f_edges f with Some _ => true | None => false end) frames.
Lemma all_rows_of frames dt t0 save impact : all_rows frames dt t0 = rows_of frames dt t0 save impact.
Proof. unfold all_rows, rows_of. change (fst (fst (collect frames dt t0 save impact))) with (SpreadingP.the_rows (collect frames dt t0 save impact)). rewrite SpreadingP.collect_rows. symmetry. apply rows_any. Qed.

(** A run over the unbroken range of [n] files which all show a frame.  The rows are returned (in single precision) and written below the header; no
    other file changes, and if there was an output before its content is kept. *)
Theorem C73_run : forall ffuel fuel hdr o dt t0 d written base out fo n frames, wf d ->
  let begin := match o_begin fo with Some b => b | None => 1%Z end in
  let e := match o_end fo with Some e => e | None => Inf end in
  let ext := match o_ext fo with Some x => x | None => ".dat"%string end in
  let name i := fname base (begin + Z.of_nat i) ext in
  let rows := rows_of frames dt t0 true written in
  (n < ffuel)%nat ->
  run_length (fun z => match e with Upto m => (z <= m)%Z | Inf => True end /\ exists_path d (os_path (fname base z ext)) = true) begin n ->
  (forall i, (i <= n)%nat -> os_path (name i) <> os_path out) -> (forall j, os_path (name n) <> Utils.backup_path (os_path out) j) ->
  length frames = n -> (forall i f, nth_error frames i = Some f -> shows_frame fuel o d (name i) f) ->
  exists d', spreading_run ffuel fuel hdr o dt t0 d written base (Some out) fo = (d', (written || detected frames)%bool, Ok (map (fun r => (f32 (r_t r), f32 (r_r r))) rows)) /\
    wf d' /\ lookup (files d') (os_path out) = Some (string_of (spreading_text (hdr ++ impact_of written dt frames) rows)) /\
    (forall q, exists_path d q = true -> q <> os_path out -> lookup (files d') q = lookup (files d) q) /\
    Permutation (contents d') (contents d ++ [string_of (spreading_text (hdr ++ impact_of written dt frames) rows)]).
Proof.
  intros ffuel fuel hdr o dt t0 d written base out fo n frames Hw begin e ext name rows Hf Hr Hn Hb HL HF. rewrite spreading_text_eq. unfold rows. rewrite <- all_rows_of.
  destruct (run_saved ffuel fuel hdr o dt t0 d written base out fo n n frames None Hw Hf Hr Hn Hb (le_n n) HL) as (d' & E & H); [intros i f Hi; apply shows_frame_of; exact (HF i f Hi)|reflexivity|].
  exists d'. split; [exact E|exact H].
Qed.
Print Assumptions C73_run.
(** If file [m] is unusable the run ends with its exception; the rows of the files before it are in the output. *)
Theorem C73_failing_file : forall ffuel fuel hdr o dt t0 d written base out fo n m frames err, wf d ->
  let begin := match o_begin fo with Some b => b | None => 1%Z end in
  let e := match o_end fo with Some e => e | None => Inf end in
  let ext := match o_ext fo with Some x => x | None => ".dat"%string end in
  let name i := fname base (begin + Z.of_nat i) ext in
  let rows := rows_of frames dt t0 true written in
  (n < ffuel)%nat ->
  run_length (fun z => match e with Upto m => (z <= m)%Z | Inf => True end /\ exists_path d (os_path (fname base z ext)) = true) begin n ->
  (forall i, (i <= n)%nat -> os_path (name i) <> os_path out) -> (forall j, os_path (name n) <> Utils.backup_path (os_path out) j) ->
  (m < n)%nat -> length frames = m -> (forall i f, nth_error frames i = Some f -> shows_frame fuel o d (name i) f) -> unusable fuel o d (name m) err ->
  exists d', spreading_run ffuel fuel hdr o dt t0 d written base (Some out) fo = (d', (written || detected frames)%bool, Err err) /\
    wf d' /\ lookup (files d') (os_path out) = Some (string_of (spreading_text (hdr ++ impact_of written dt frames) rows)) /\
    (forall q, exists_path d q = true -> q <> os_path out -> lookup (files d') q = lookup (files d) q) /\
    Permutation (contents d') (contents d ++ [string_of (spreading_text (hdr ++ impact_of written dt frames) rows)]).
Proof.
  intros ffuel fuel hdr o dt t0 d written base out fo n m frames err Hw begin e ext name rows Hf Hr Hn Hb Hm HL HF HE. rewrite spreading_text_eq. unfold rows. rewrite <- all_rows_of.
  destruct (run_saved ffuel fuel hdr o dt t0 d written base out fo n m frames (Some err) Hw Hf Hr Hn Hb ltac:(lia) HL) as (d' & E & H); [intros i f Hi; apply shows_frame_of; exact (HF i f Hi)| |].
  { split; [exact Hm|]. apply unusable_of. exact HE. }
  exists d'. split; [exact E|exact H].
Qed.
Print Assumptions C73_failing_file.
(** The lines about the impact: the time is the number of the first frame with edges times dt, the file is named without its folder. *)
Theorem C73_impact_lines : forall dt frames k f folder name, nth_error frames k = Some f -> f_edges f <> None ->
  (forall j g, (j < k)%nat -> nth_error frames j = Some g -> f_edges g = None) ->
  f_path f = (folder ++ "/" ++ name)%string -> no_slash name ->
  impact_of false dt frames = [txt "# Droplet impact:"; txt "#   Time: " ++ fmt_fixed 3 (NQ k * dt) ++ txt " ps"; txt "#   File: '" ++ bytes_of name ++ txt "'"; txt "# ";
                               txt "# Time (ps) Radius (nm) Left (nm) Right (nm)"].
Proof.
  intros dt frames k f folder name Hk He Hb HP Hn. unfold impact_of.
  assert (SpreadingP.first_detected frames 0 = Some (k, f_path f)) as ->.
  { assert (forall fs i, nth_error fs i = Some f -> (forall j g, (j < i)%nat -> nth_error fs j = Some g -> f_edges g = None) -> forall a, SpreadingP.first_detected fs a = Some ((a + i)%nat, f_path f)) as G.
    { clear -He. induction fs as [|g fs IH]; intros i Hi Hj a; [destruct i; discriminate|]. destruct i as [|i]; cbn [nth_error] in Hi.
      - injection Hi as ->. cbn [SpreadingP.first_detected]. destruct (f_edges f); [|contradiction]. rewrite Nat.add_0_r. reflexivity.
      - cbn [SpreadingP.first_detected]. rewrite (Hj 0%nat g ltac:(lia) eq_refl). rewrite (IH i Hi (fun j h Hlt Hh => Hj (S j) h ltac:(lia) Hh) (S a)). replace (S a + i)%nat with (a + S i)%nat by lia. reflexivity. }
    exact (G frames k Hk Hb 0%nat). }
  unfold impact_lines. rewrite HP. replace (folder ++ "/" ++ name)%string with ((folder ++ "/") ++ name)%string by (rewrite <- app_string_assoc; reflexivity).
  rewrite (split_slash_app _ _ Hn). cbn [snd].
  assert (snd (split_slash (folder ++ "/")) = EmptyString) as ->.
  { clear. induction folder as [|c s IH]; [reflexivity|]. cbn [String.append split_slash]. destruct (split_slash (s ++ "/")) as [h r] eqn:E. cbn [snd] in IH. subst r.
    destruct h; [|destruct (Ascii.eqb c "/"); reflexivity]. exfalso. clear -E. revert E. destruct s as [|c s]; cbn [String.append split_slash]; [discriminate|].
    destruct (split_slash (s ++ "/")) as [h r]. destruct (Ascii.eqb c "/"); [discriminate|]. destruct h; discriminate. }
  reflexivity.
Qed.
Print Assumptions C73_impact_lines.
(** Without an output the disk is left as it is, and the result is the same. *)
Theorem C73_not_saved : forall ffuel fuel hdr o dt t0 d written base fo n frames,
  let begin := match o_begin fo with Some b => b | None => 1%Z end in
  let e := match o_end fo with Some e => e | None => Inf end in
  let ext := match o_ext fo with Some x => x | None => ".dat"%string end in
  (n < ffuel)%nat ->
  run_length (fun z => match e with Upto m => (z <= m)%Z | Inf => True end /\ exists_path d (os_path (fname base z ext)) = true) begin n ->
  length frames = n -> (forall i f, nth_error frames i = Some f -> shows_frame fuel o d (fname base (begin + Z.of_nat i) ext) f) ->
  exists w, spreading_run ffuel fuel hdr o dt t0 d written base None fo = (d, w, Ok (map (fun r => (f32 (r_t r), f32 (r_r r))) (rows_of frames dt t0 true written))).
Proof.
  intros ffuel fuel hdr o dt t0 d written base fo n frames begin e ext Hf Hr HL HF. unfold spreading_run, Utils.pop_fileopts. cbn [Utils.f_begin Utils.f_end Utils.f_ext].
  change (Utils.dflt 1%Z (o_begin fo)) with begin. change (Utils.dflt Inf (o_end fo)) with e. change (Utils.dflt ".dat"%string (o_ext fo)) with ext.
  unfold Utils.find_datamap_singles. rewrite (UtilsFiles.yield_singles_run _ _ _ _ n); [|exact Hr|exact Hf]. cbn [rbind].
  assert (Forall2 (fun nm f => frame_of fuel o nm (Average.content d nm) = Ok f) (map (fun k => fname base k ext) (numbers begin n)) frames) as HF2.
  { rewrite <- HL. clear Hr Hf HL. clearbody begin. revert begin HF. induction frames as [|f frames IH]; intros b HF; cbn [length numbers map]; constructor.
    - apply shows_frame_of. specialize (HF 0%nat f eq_refl). rewrite Z.add_0_r in HF. exact HF.
    - apply IH. intros i g Hg. specialize (HF (S i) g Hg). replace (b + 1 + Z.of_nat i)%Z with (b + Z.of_nat (S i))%Z by lia. exact HF. }
  pose proof (loop_unsaved fuel o dt d [] None I _ frames 0 t0 init_periodic_info written HF2) as HU. rewrite app_nil_r in HU. rewrite HU.
  pose proof (all_rows_of frames dt t0 true written) as A. unfold all_rows in A. rewrite <- (rows_any frames dt t0 false written) in A.
  destruct (collect_loop frames 0 dt t0 init_periodic_info false written) as [[rows lines] w]. exists w. unfold SpreadingP.the_rows in A. cbn [fst] in A. rewrite <- A. reflexivity.
Qed.
Print Assumptions C73_not_saved.

(** ** C74 *)
(** Reading the file: the times, and after them each column, rounded to three decimals. *)
Definition points (ts rs : list Qc) : list (ext * ext) := combine (map Fin ts) (map Fin rs).
Theorem C74_read_back : forall name header rows, Forall comment_line header -> (2 <= length rows)%nat -> exists ts rs ls xs,
  read_spreading_file name (Some (spreading_text header rows)) =
    Ok [mkSeries (name ++ ".1") (points ts rs); mkSeries (name ++ ".2") (points ts ls); mkSeries (name ++ ".3") (points ts xs)] /\
  Forall2 (nearest_decimal 3) (map r_t rows) ts /\ Forall2 (nearest_decimal 3) (map r_r rows) rs /\
  Forall2 (nearest_decimal 3) (map r_left rows) ls /\ Forall2 (nearest_decimal 3) (map r_right rows) xs.
Proof.
  intros name header rows Hh Hl. rewrite spreading_text_eq. unfold read_spreading_file.
  rewrite (read_table name header (map row_numbers rows) 2 Hh) by (try (rewrite map_length; exact Hl); intros r Hr; apply in_map_iff in Hr; destruct Hr as (q & <- & _); reflexivity).
  rewrite !map_map. exists (map (round_dec 3) (map r_t rows)), (map (round_dec 3) (map r_r rows)), (map (round_dec 3) (map r_left rows)), (map (round_dec 3) (map r_right rows)).
  assert (forall l, Forall2 (nearest_decimal 3) l (map (round_dec 3) l)) as N by (induction l; cbn [map]; constructor; [apply round_dec_nearest|assumption]).
  split; [|auto]. apply f_equal. cbn [seq map]. unfold curve, points. rewrite !map_map. reflexivity.
Qed.
Print Assumptions C74_read_back.
Lemma line_of : (forall s t, one_line s -> one_line t -> comment_line (chr 35 :: s ++ t)) /\ (forall s, one_line s -> comment_line (chr 35 :: s)) /\ (forall t, one_line t -> one_line (quoted t)).
Proof.
  split; [|split].
  - intros s t Hs Ht. exists (s ++ t). split; [reflexivity|]. apply Forall_app. split; assumption.
  - intros s Hs. exists s. split; [reflexivity|exact Hs].
  - intros t Ht. unfold quoted, one_line. apply Forall_app. split; [repeat constructor; vm_compute; discriminate|]. apply Forall_app. split; [exact Ht|repeat constructor; vm_compute; discriminate].
Qed.
Ltac lit := unfold one_line; cbn; repeat (constructor; [split; vm_compute; discriminate|]); constructor.
Lemma fixed_one_line x : one_line (fmt_fixed 3 x).
Proof. pose proof (fmt_fixed_fplain 3 x ltac:(lia)) as H. eapply Forall_impl; [|exact H]. cbn. tauto. Qed.
Lemma one_line_app a b : one_line a -> one_line b -> one_line (a ++ b). Proof. intros A B. apply Forall_app. auto. Qed.
(** The header is skipped by the reader if the texts in it have no line breaks. *)
Theorem C74_header : forall i, one_line (s_date i) -> one_line (s_version i) -> one_line (s_base i) -> one_line (s_begin i) -> one_line (s_end i) ->
  one_line (s_floor i) -> one_line (s_dt i) -> one_line (s_cutoff i) -> one_line (s_radius i) -> one_line (s_bins i) -> Forall comment_line (spreading_header i).
Proof.
  intros i H1 H2 H3 H4 H5 H6 H7 H8 H9 H10. destruct line_of as (C & C0 & Q). assert (one_line (s_begin i ++ txt ", " ++ s_end i)) as H11 by (apply one_line_app; [assumption|apply one_line_app; [lit|assumption]]).
  unfold spreading_header. repeat (apply Forall_cons; [InterfaceFilesProps.line C C0 Q|]). apply Forall_nil.
Qed.
Print Assumptions C74_header.
Lemma base_chars (P : ascii -> Prop) s : Forall P (bytes_of s) -> Forall P (bytes_of (fst (split_slash s))) /\ Forall P (bytes_of (snd (split_slash s))).
Proof.
  unfold bytes_of. induction s as [|c s IH]; intros H; [split; constructor|]. inversion H as [|? ? Hc Hs]; subst. destruct (IH Hs) as [A B]. cbn [split_slash]. destruct (split_slash s) as [h r]. cbn [fst snd] in *.
  destruct (Ascii.eqb c "/"); [split; [constructor; assumption|exact B]|]. destruct h; [split; [constructor|constructor; assumption]|split; [constructor; assumption|exact B]].
Qed.
Theorem C74_impact : forall written dt frames, (forall f, In f frames -> one_line (bytes_of (f_path f))) -> Forall comment_line (impact_of written dt frames).
Proof.
  intros written dt frames H. unfold impact_of. destruct written; [constructor|]. destruct (SpreadingP.first_detected frames 0) as [[k pth]|] eqn:E; [|constructor].
  apply C32_impact_frame in E. destruct E as (f & Hf & HP & _). specialize (H f (nth_error_In _ _ Hf)). rewrite HP in H. destruct line_of as (C & C0 & Q).
  assert (one_line (fmt_fixed 3 (NQ k * dt) ++ txt " ps")) as H1 by (apply one_line_app; [apply fixed_one_line|lit]).
  assert (one_line (bytes_of (snd (split_slash pth)))) as H2 by (apply base_chars; exact H).
  unfold impact_lines. repeat (apply Forall_cons; [InterfaceFilesProps.line C C0 Q|]). apply Forall_nil.
Qed.
Print Assumptions C74_impact.
(** From the maps to the curve that is read: if the frames show a droplet that moves less than half a box between frames, the first curve of the output has one point for each frame with edges: the
    times count the frames from [t0] in steps of [dt], and the radii are half the width of the droplet, both to three decimals; wherever in the box it is. *)
Theorem C74_true_radii : forall ffuel fuel hdr o dt t0 d written base out fo n frames box traj, wf d ->
  let begin := match o_begin fo with Some b => b | None => 1%Z end in
  let e := match o_end fo with Some e => e | None => Inf end in
  let ext := match o_ext fo with Some x => x | None => ".dat"%string end in
  let name i := fname base (begin + Z.of_nat i) ext in
  (n < ffuel)%nat ->
  run_length (fun z => match e with Upto m => (z <= m)%Z | Inf => True end /\ exists_path d (os_path (fname base z ext)) = true) begin n ->
  (forall i, (i <= n)%nat -> os_path (name i) <> os_path out) -> (forall j, os_path (name n) <> Utils.backup_path (os_path out) j) ->
  length frames = n -> (forall i f, nth_error frames i = Some f -> shows_frame fuel o d (name i) f) ->
  Forall comment_line hdr -> (forall i, (i < n)%nat -> one_line (bytes_of (name i))) ->
  0 < box -> trajectory box traj -> observes box frames traj -> (2 <= length traj)%nat ->
  exists d' ts rs ls xs, fst (fst (spreading_run ffuel fuel hdr o dt t0 d written base (Some out) fo)) = d' /\
    read_spreading_data d' [out] = ([mkSeries (out ++ ".1") (points ts rs); mkSeries (out ++ ".2") (points ts ls); mkSeries (out ++ ".3") (points ts xs)], []) /\
    length ts = length traj /\ length rs = length traj /\ length ls = length traj /\ length xs = length traj /\
    forall k p, nth_error traj k = Some p -> exists t r, nth_error ts k = Some t /\ nth_error rs k = Some r /\
      nearest_decimal 3 (t0 + NQ k * dt) t /\ nearest_decimal 3 (Q2Qc (1 # 2) * (snd p - fst p)) r.
Proof.
  intros ffuel fuel hdr o dt t0 d written base out fo n frames box traj Hw begin e ext name Hf Hr Hn Hb HL HF Hh HN Hbox HT HO H2.
  destruct (C73_run ffuel fuel hdr o dt t0 d written base out fo n frames Hw Hf Hr Hn Hb HL HF) as (d' & E & _ & L & _). rewrite E. cbn [fst].
  pose proof (C30_radius_across_boundaries box frames traj dt t0 true written Hbox HT HO) as HR. pose proof (C32_times_partial frames dt t0 true written) as HTm.
  set (rows := rows_of frames dt t0 true written) in *.
  assert (length rows = length traj) as LR by (clear -HR; induction HR; cbn; auto).
  assert (length (filter (fun f => match f_edges f with Some _ => true | None => false end) frames) = length traj) as LF by (clear -HO; unfold observes in HO; induction HO; cbn; auto).
  rewrite LF in HTm.
  destruct (C74_read_back out (hdr ++ impact_of written dt frames) rows) as (ts & rs & ls & xs & RD & F1 & F2 & F3 & F4).
  { apply Forall_app. split; [exact Hh|]. apply C74_impact. intros f Hin. apply In_nth_error in Hin. destruct Hin as [i Hi]. destruct (HF i f Hi) as [-> _].
    apply HN. rewrite <- HL. apply nth_error_Some. rewrite Hi. discriminate. }
  { lia. }
  exists d', ts, rs, ls, xs. split; [reflexivity|]. split.
  - cbn [read_spreading_data]. unfold Average.content. rewrite L. cbn [option_map]. rewrite bytes_string, RD. reflexivity.
  - assert (forall (A : Type) (R : A -> Qc -> Prop) l m, Forall2 R l m -> length m = length l) as FL by (clear; intros A R l m; induction 1; cbn; auto).
    rewrite (FL _ _ _ _ F1), (FL _ _ _ _ F2), (FL _ _ _ _ F3), (FL _ _ _ _ F4), !map_length. do 4 (split; [exact LR|]). intros k p Hk.
    assert (k < length traj)%nat as Hlt by (apply nth_error_Some; rewrite Hk; discriminate).
    assert (forall (A B : Type) (R : A -> B -> Prop) l m, Forall2 R l m -> forall i x, nth_error l i = Some x -> exists y, nth_error m i = Some y /\ R x y) as FN.
    { clear. intros A B R l m. induction 1 as [|a b l m Hab Hlm IH]; intros [|i] x Hx; try discriminate; cbn in *; [injection Hx as <-; eauto|apply IH; exact Hx]. }
    assert (nth_error (map r_t rows) k = Some (t0 + NQ k * dt)) as ET.
    { rewrite HTm, nth_error_map. rewrite (nth_error_nth' (seq 0 (length traj)) 0%nat) by (rewrite seq_length; exact Hlt). rewrite seq_nth by exact Hlt. reflexivity. }
    destruct (FN _ _ _ _ _ F1 _ _ ET) as (t & Et & Nt).
    assert (k < length rows)%nat as Hlt' by (rewrite LR; exact Hlt). destruct (nth_error rows k) as [rw|] eqn:Erw; [|apply nth_error_None in Erw; lia].
    destruct (FN _ _ _ _ _ HR _ _ Erw) as (p' & Hp' & Hr'). rewrite Hk in Hp'. injection Hp' as <-.
    assert (nth_error (map r_r rows) k = Some (r_r rw)) as ER by (rewrite nth_error_map, Erw; reflexivity).
    destruct (FN _ _ _ _ _ F2 _ _ ER) as (r & Er & Nr). exists t, r. rewrite <- Hr'. auto.
Qed.
Print Assumptions C74_true_radii.
(** Refuted: a file with a single row (a run in which one frame has edges) gives no curve and no warning. *)
Theorem C74_single_row_refuted : forall d out header row, lookup (files d) (os_path out) = Some (string_of (spreading_text header [row])) ->
  Forall comment_line header -> Forall at_free header -> read_spreading_data d [out] = ([], []).
Proof.
  intros d out header row L Hh Ha. cbn [read_spreading_data]. unfold Average.content. rewrite L. cbn [option_map]. rewrite bytes_string, spreading_text_eq. cbn [map].
  rewrite read_one_row; [reflexivity|exact Hh|exact Ha|discriminate].
Qed.
Print Assumptions C74_single_row_refuted.
(** What a table of at least two rows and two columns shows: curve [j] has the pairs of time and column [j] of the rows in their order, without those where the radius is NaN. *)
Theorem C74_missing_radii : forall name f rows c, loadtxt f = Ok rows -> (2 <= length rows)%nat -> (2 <= c)%nat -> (forall r, In r rows -> length r = c) ->
  exists series, read_spreading_file name (Some f) = Ok series /\ length series = (c - 1)%nat /\
    forall j, (1 <= j < c)%nat -> exists s, nth_error series (j - 1) = Some s /\ s_name s = (name ++ "." ++ Utils.dec (N.of_nat j))%string /\
      s_points s = filter (fun p => match snd p with NaN => false | _ => true end) (map (fun r => (nth 0 r NaN, nth j r NaN)) rows).
Proof.
  intros name f rows c HL H2 Hc HR. unfold read_spreading_file, read_plain_file. rewrite HL. cbn [rbind]. destruct rows as [|r1 [|r2 rows]]; [cbn in H2; lia|cbn in H2; lia|].
  assert (length r1 = c) as Lr by (apply HR; left; reflexivity).
  assert ((match r1 with [_] => Err TypeErr | _ => if Nat.eqb (length r1) 1 then Err TypeErr else Ok (map (fun j => get_series (column (r1 :: r2 :: rows) j) (column (r1 :: r2 :: rows) 0) name j) (seq 1 (length r1 - 1))) end)
    = (Ok (map (fun j => get_series (column (r1 :: r2 :: rows) j) (column (r1 :: r2 :: rows) 0) name j) (seq 1 (c - 1))) : res (list series))) as E.
  { subst c. destruct r1 as [|a [|b r1]]; [cbn in Hc; lia|cbn in Hc; lia|]. reflexivity. }
  assert (forall {X} (a b : X), (match r1 with [_] => b | _ => b end) = b) as Hm by (intros; destruct r1 as [|? [|? ?]]; reflexivity).
  destruct r1 as [|a [|b r1]]; [cbn in Lr; lia|cbn in Lr; lia|]. cbn [Nat.eqb length] in *. rewrite <- Lr in *. eexists. split; [reflexivity|]. rewrite map_length, seq_length. split; [reflexivity|].
  intros j Hj. cbn [Nat.sub]. eexists. split.
  - rewrite nth_error_map. rewrite (nth_error_nth' _ 0%nat) by (rewrite seq_length; lia). rewrite seq_nth by lia. cbn [option_map]. reflexivity.
  - replace (1 + (j - 1))%nat with j by lia. unfold get_series. cbn [s_name s_points]. split; [reflexivity|]. unfold column.
    generalize ((a :: b :: r1) :: r2 :: rows). intros l. induction l as [|r l IH]; [reflexivity|]. cbn [map combine filter fst snd]. rewrite IH. destruct (nth j r NaN); reflexivity.
Qed.
Print Assumptions C74_missing_radii.
(** Rows of different lengths are no table: if the file has no '@' either, there is no curve, and no warning. *)
Theorem C74_ragged_refuted : forall name f r1 r2, In r1 (map split_line (flines f)) -> In r2 (map split_line (flines f)) -> r1 <> [] -> r2 <> [] -> length r1 <> length r2 ->
  at_free f -> read_spreading_file name (Some f) = Ok [].
Proof.
  intros name f r1 r2 H1 H2 N1 N2 HL HF. unfold read_spreading_file, read_plain_file, loadtxt.
  set (rows := filter (fun ws => negb (Nat.eqb (length ws) 0)) (map split_line (flines f))).
  assert (forall r, In r (map split_line (flines f)) -> r <> [] -> In r rows) as HI by (intros r Hr Nr; apply filter_In; split; [exact Hr|destruct r; [contradiction|reflexivity]]).
  destruct (rmapM (rmapM float_word) rows) as [vals|e] eqn:EV; cbn [rbind]; [|apply free_xvg; exact HF].
  assert (forall r, In r rows -> exists v, In v vals /\ length v = length r) as HV.
  { clear -EV. assert (forall (l : list bytes) v, rmapM float_word l = Ok v -> length v = length l) as L1.
    { induction l as [|w l IH]; intros v E; cbn [rmapM] in E; [injection E as <-; reflexivity|]. destruct (float_word w); cbn [rbind] in E; [|discriminate]. destruct (rmapM float_word l) as [t|]; cbn [rbind] in E; [|discriminate].
      injection E as <-. cbn. rewrite (IH t eq_refl). reflexivity. }
    revert vals EV. induction rows as [|q rows IH]; intros vals EV r Hr; [destruct Hr|]. cbn [rmapM] in EV. destruct (rmapM float_word q) as [v|] eqn:Eq; cbn [rbind] in EV; [|discriminate].
    destruct (rmapM (rmapM float_word) rows) as [vs|]; cbn [rbind] in EV; [|discriminate]. injection EV as <-. destruct Hr as [<- | Hr]; [exists v; split; [left; reflexivity|exact (L1 q v Eq)]|].
    destruct (IH vs eq_refl r Hr) as (w & Hw & Lw). exists w. split; [right; exact Hw|exact Lw]. }
  destruct (HV r1 (HI r1 H1 N1)) as (v1 & I1 & L1). destruct (HV r2 (HI r2 H2 N2)) as (v2 & I2 & L2).
  destruct vals as [|v vals]; [destruct I1|]. destruct (forallb (fun w => Nat.eqb (length w) (length v)) (v :: vals)) eqn:EF; [|cbn [rbind]; apply free_xvg; exact HF].
  exfalso. rewrite forallb_forall in EF. pose proof (EF v1 I1) as A. pose proof (EF v2 I2) as B. apply Nat.eqb_eq in A, B. lia.
Qed.
Print Assumptions C74_ragged_refuted.
(** A file which cannot be read is named in a warning, and the other files are read. *)
Theorem C74_warning : forall d names, snd (read_spreading_data d names) = filter (fun n => match read_spreading_file n (Average.content d n) with Ok _ => false | Err _ => true end) names /\
  fst (read_spreading_data d names) = flat_map (fun n => match read_spreading_file n (Average.content d n) with Ok s => s | Err _ => [] end) names.
Proof.
  intros d. induction names as [|n names [IH1 IH2]]; [split; reflexivity|]. cbn [read_spreading_data flat_map filter]. destruct (read_spreading_data d names) as [ss ws]. cbn [fst snd] in *.
  destruct (read_spreading_file n (Average.content d n)); cbn [fst snd]; rewrite IH1, IH2; split; reflexivity.
Qed.
Print Assumptions C74_warning.
Theorem C74_missing_file : forall d n, lookup (files d) (os_path n) = None -> read_spreading_data d [n] = ([], [n]).
Proof. intros d n H. cbn [read_spreading_data]. unfold Average.content. rewrite H. reflexivity. Qed.
Print Assumptions C74_missing_file.

(** ** C75 *)
(** A graph without points makes the whole file unreadable, for all names. *)
Theorem C75_graph_without_points_refuted : forall name, exists e,
  read_spreading_file name (Some (txt "@target G0.S0" ++ nl ++ txt "@type xy" ++ nl ++ txt "&" ++ nl ++ txt "@target G0.S1" ++ nl ++ txt "@type xy" ++ nl ++ txt "1.0 2.0" ++ nl)) = Err e.
Proof. intros name. eexists. vm_compute. reflexivity. Qed.
Print Assumptions C75_graph_without_points_refuted.
(** [t] shows the points: one line for each, of two numbers.  (pandas: [s.to_string()].) *)
Definition shows_points (t : bytes) (pts : list (Qc * Qc)) : Prop :=
  exists ls, t ++ nl = flat_map (fun l => l ++ nl) ls /\ Forall2 shown_point ls pts.
(** A combined file gives the curves in their order, with the points that are shown. *)
Theorem C75_read_back : forall name header shown curves, Forall comment_line header -> Forall at_free header -> (forall n, In n (map fst shown) -> at_free n) ->
  Forall2 (fun s pts => shows_points (snd s) pts) shown curves ->
  exists series, read_spreading_file name (Some (combined_text header shown)) = Ok series /\ length series = length curves /\
    forall k pts, nth_error curves k = Some pts -> exists s, nth_error series k = Some s /\
      s_name s = (name ++ "." ++ Utils.dec (N.of_nat (k + 1)))%string /\ s_points s = map (fun p => (Fin (fst p), Fin (snd p))) pts.
Proof.
  intros name header shown curves Hh Ha Hn HS. unfold combined_text.
  assert (exists lss, Forall2 (fun t ls => t ++ nl = flat_map (fun l => l ++ nl) ls) (map snd shown) lss /\ Forall2 (Forall2 shown_point) lss curves) as (lss & H1 & H2).
  { clear -HS. induction HS as [|s pts shown curves (ls & E & F) HS (lss & A & B)]; [exists []; split; constructor|]. exists (ls :: lss). split; constructor; assumption. }
  eexists. split; [exact (read_combined name header (map fst shown) (map snd shown) lss curves Hh Ha (proj2 (Forall_forall _ _) Hn) H1 H2)|]. rewrite map_length, combine_length, seq_length, Nat.min_id. split; [reflexivity|]. intros k pts Hk.
  assert (k < length curves)%nat as Hlt by (apply nth_error_Some; rewrite Hk; discriminate).
  assert (nth_error (combine (seq 0 (length curves)) curves) k = Some (k, pts)) as EC.
  { clear -Hk. assert (forall l a i (x : list (Qc * Qc)), nth_error l i = Some x -> nth_error (combine (seq a (length l)) l) i = Some ((a + i)%nat, x)) as G.
    { induction l as [|y l IH]; intros a [|i] x Hx; try discriminate; cbn [length seq combine nth_error] in *; [injection Hx as <-; rewrite Nat.add_0_r; reflexivity|]. rewrite (IH (S a) i x Hx). do 2 f_equal. lia. }
    exact (G curves 0%nat k pts Hk). }
  eexists. rewrite nth_error_map, EC. split; [reflexivity|]. cbn [fst snd]. unfold curve. cbn [s_name s_points]. split; [reflexivity|].
  clear. induction pts as [|p pts IH]; [reflexivity|]. cbn [map combine]. rewrite IH. reflexivity.
Qed.
Print Assumptions C75_read_back.

(** In particular for texts in fixed decimals, the numbers separated by spaces. *)
Definition decimal_lines (dt dr : nat) (pts : list (Qc * Qc)) : bytes := join nl (map (fun p => fmt_fixed dt (fst p) ++ txt "    " ++ fmt_fixed dr (snd p)) pts).
Lemma float_word_dec d x : (0 < d)%nat -> float_word (fmt_fixed d x) = Ok (Fin (round_dec d x)).
Proof. intros Hd. unfold float_word, to_ext. rewrite to_float_fixed by exact Hd. reflexivity. Qed.
Theorem C75_decimals : forall a b pts, (0 < a)%nat -> (0 < b)%nat -> pts <> [] ->
  exists shown, shows_points (decimal_lines a b pts) shown /\ Forall2 (fun p q => nearest_decimal a (fst p) (fst q) /\ nearest_decimal b (snd p) (snd q)) pts shown.
Proof.
  intros a b pts Ha Hb Hne. exists (map (fun p => (round_dec a (fst p), round_dec b (snd p))) pts). split.
  - exists (map (fun p => fmt_fixed a (fst p) ++ txt "    " ++ fmt_fixed b (snd p)) pts). split.
    + unfold decimal_lines. destruct pts as [|p pts]; [contradiction|]. clear Hne. revert p. induction pts as [|q pts IH]; intros p; cbn [map flat_map]; [rewrite app_nil_r; reflexivity|].
      specialize (IH q). cbn [map flat_map] in IH. rewrite <- IH. match goal with |- join nl (?x :: ?y :: ?r) ++ nl = _ => change (join nl (x :: y :: r)) with (x ++ nl ++ join nl (y :: r)) end.
      rewrite <- !app_assoc. reflexivity.
    + clear Hne. induction pts as [|p pts IH]; [constructor|]. cbn [map]. constructor; [|exact IH]. cbn [fst snd].
      destruct (fmt_fixed_plain a (fst p) Ha) as [P1 N1]. destruct (fmt_fixed_plain b (snd p) Hb) as [P2 N2]. split; [|split].
      * apply Forall_app. split; [eapply Forall_impl; [|exact P1]; apply plain_unbroken|]. apply Forall_app. split; [repeat constructor|eapply Forall_impl; [|exact P2]; apply plain_unbroken].
      * apply at_free_app. split; [apply fixed_at_free; exact Ha|]. apply at_free_app. split; [repeat constructor; vm_compute; discriminate|apply fixed_at_free; exact Hb].
      * exists (fmt_fixed a (fst p)), (fmt_fixed b (snd p)). split; [|split; apply float_word_dec; assumption].
        change (txt "    " ++ fmt_fixed b (snd p)) with (chr 32 :: (txt "   " ++ fmt_fixed b (snd p))). rewrite words_space; [|exact P1|exact N1|reflexivity]. f_equal.
        rewrite words_skip by (repeat constructor). apply words_end; assumption.
  - clear Hne. induction pts as [|p pts IH]; [constructor|]. cbn [map]. constructor; [|exact IH]. cbn [fst snd]. split; apply round_dec_nearest.
Qed.
Print Assumptions C75_decimals.
(** The header is of comment lines, and free of '@' if the texts in it are. *)
Definition clean (t : bytes) : Prop := one_line t /\ at_free t.
Ltac flit := unfold at_free; cbn; repeat (constructor; [vm_compute; discriminate|]); constructor.
Theorem C75_header : forall e names, clean (e_module e) -> clean (e_date e) -> clean (e_version e) -> clean (e_cwd e) -> Forall clean names ->
  Forall comment_line (combined_header e names) /\ Forall at_free (combined_header e names).
Proof.
  intros e names [H1 F1] [H2 F2] [H3 F3] [H4 F4] HN. destruct line_of as (C & C0 & Q).
  assert (forall t, at_free t -> at_free (quoted t)) as QF by (intros t Ht; apply at_free_app; split; [flit|apply at_free_app; split; [exact Ht|flit]]).
  unfold combined_header. split; repeat (apply Forall_app; split).
  - repeat (apply Forall_cons; [InterfaceFilesProps.line C C0 Q|]). apply Forall_nil.
  - induction HN as [|n names [Hn _] HN IH]; cbn [map]; constructor; [apply (C (tl (txt "#   "))); [lit|apply Q; exact Hn]|exact IH].
  - repeat (apply Forall_cons; [InterfaceFilesProps.line C C0 Q|]). apply Forall_nil.
  - repeat (apply Forall_cons; [first [apply at_free_app; split; [flit|first [assumption|apply QF; assumption]]|flit]|]). apply Forall_nil.
  - induction HN as [|n names [_ Hn] HN IH]; cbn [map]; constructor; [apply at_free_app; split; [flit|apply QF; exact Hn]|exact IH].
  - repeat (apply Forall_cons; [flit|]). apply Forall_nil.
Qed.
Print Assumptions C75_header.
(** The same for the header of fitted curves. *)
Theorem C75_fit_header : forall e l1 l2 o1 o2 names, clean (e_module e) -> clean (e_date e) -> clean (e_version e) -> clean (e_cwd e) ->
  clean l1 -> clean l2 -> clean o1 -> clean o2 -> Forall clean names ->
  Forall comment_line (fit_header e (l1, l2) (o1, o2) names) /\ Forall at_free (fit_header e (l1, l2) (o1, o2) names).
Proof.
  intros e l1 l2 o1 o2 names [H1 F1] [H2 F2] [H3 F3] [H4 F4] [H5 F5] [H6 F6] [H7 F7] [H8 F8] HN. destruct line_of as (C & C0 & Q).
  assert (forall t, at_free t -> at_free (quoted t)) as QF by (intros t Ht; apply at_free_app; split; [flit|apply at_free_app; split; [exact Ht|flit]]).
  assert (one_line (l1 ++ txt ", " ++ l2)) as H9 by (apply one_line_app; [assumption|apply one_line_app; [lit|assumption]]).
  assert (one_line (o1 ++ txt ", " ++ o2)) as H10 by (apply one_line_app; [assumption|apply one_line_app; [lit|assumption]]).
  assert (at_free (l1 ++ txt ", " ++ l2)) as F9 by (apply at_free_app; split; [assumption|apply at_free_app; split; [flit|assumption]]).
  assert (at_free (o1 ++ txt ", " ++ o2)) as F10 by (apply at_free_app; split; [assumption|apply at_free_app; split; [flit|assumption]]).
  unfold fit_header. cbn [fst snd]. split; repeat (apply Forall_app; split).
  - repeat (apply Forall_cons; [InterfaceFilesProps.line C C0 Q|]). apply Forall_nil.
  - induction HN as [|n names [Hn _] HN IH]; cbn [map]; constructor; [apply (C (tl (txt "#   "))); [lit|apply Q; exact Hn]|exact IH].
  - repeat (apply Forall_cons; [InterfaceFilesProps.line C C0 Q|]). apply Forall_nil.
  - repeat (apply Forall_cons; [first [apply at_free_app; split; [flit|first [assumption|apply QF; assumption]]|flit]|]). apply Forall_nil.
  - induction HN as [|n names [_ Hn] HN IH]; cbn [map]; constructor; [apply at_free_app; split; [flit|apply QF; exact Hn]|exact IH].
  - repeat (apply Forall_cons; [flit|]). apply Forall_nil.
Qed.
Print Assumptions C75_fit_header.
