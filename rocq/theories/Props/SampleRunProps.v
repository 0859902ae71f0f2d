(** Property C81: the run of sample_average over files. *)
From Coq Require Import String Ascii Permutation Reals.
From Verif.Base Require Import QcX QcR Res Np Bytes.
From Verif.Model Require Utils Flow Average ContactAngle.
From Verif.Model Require Import Bins Text Gmx Simple Formats Table RealText InterfaceFiles SampleFiles.
From Verif.Model Require Import Sample.
From Verif.Spec Require Import FilesSpec DiskSpec TableSpec RealTextSpec CliSpec.
From Verif.Proofs Require Import UtilsFiles UtilsDisk UtilsTop TextP SimpleP FormatsP TableP RealTextP RealTextP2 NumberTextP InterfaceFilesP SpreadingFilesP SampleFilesP.
From Verif.Props Require InterfaceFilesProps InterfaceRunProps.
Import InterfaceFilesProps(one_line).
Import Utils(disk, path, files, lookup, fopts, exists_path, fname, bound, Upto, Inf, o_begin, o_end, o_ext, o_outext).
Local Open Scope list_scope.
Local Notation length := List.length.

(** ** The text of the output *)
(** The numbers shown for a sampled value: the value and, if there is one, its standard deviation ([None] is nan). *)
Definition numbers_of (s : sampled) : list (option R) :=
  match s with
  | Number v None => [match v with Fin q => Some (QR q) | _ => None end]
  | Number v (Some var) => [match v with Fin q => Some (QR q) | _ => None end; match var with Fin q => Some (sqrt (QR q)) | _ => None end]
  | AngleOf u v => [Some (ContactAngle.degrees (ContactAngle.atan2 (QR v) (QR u)))]
  end.
(** The time with three decimals and the numbers of all labels, with six significant digits. *)
Definition line_of (t : Qc) (row : list sampled) : bytes := fmt_fixed 3 t ++ flat_map (fun x => sp ++ fmt_g_opt x) (flat_map numbers_of row) ++ nl.
Definition row_of_columns (columns : list (list sampled)) (i : nat) : list sampled := map (fun col => nth i col (AngleOf 0 0)) columns.
Definition average_text (header : list bytes) (times : list Qc) (columns : list (list sampled)) : bytes :=
  flat_map (fun l => l ++ nl) header ++ flat_map (fun i => line_of (nth i times 0) (row_of_columns columns i)) (seq 0 (length times)).
(** The header. *)
Definition first_header (e : env) : list bytes :=
  [txt "# Sample average of data from a simulation"; txt "# "; txt "# Created by module: " ++ e_module e; txt "# Creation date: " ++ e_date e; txt "# Using module version: " ++ e_version e; txt "# "].
Definition full_header (e : env) (t : avtexts) (labels : list string) (begin : Z) (last : bound) : list bytes :=
  first_header e ++
  [txt "# Input:"; txt "#   Sample data labels: " ++ at_labels t; txt "#   File base path: " ++ at_base t;
   txt "#   Begin, end: " ++ fmt_int begin ++ txt ", " ++ match last with Upto z => fmt_int z | Inf => txt "inf" end;
   txt "#   Delta-t: 1.0"; txt "#   Cut-off: " ++ at_cutoff t; txt "#   Cut-off label: " ++ at_cutoff_label t; txt "# ";
   txt "# Time (ps) " ++ match labels with [l] => bytes_of l ++ txt " [std]" | _ => join sp (map bytes_of labels) end].

Lemma line_eq t row : average_line t row = line_of t row.
Proof.
  unfold average_line, line_of. f_equal. f_equal. induction row as [|s row IH]; [reflexivity|]. cbn [flat_map]. rewrite flat_map_app, <- IH. f_equal.
  destruct s as [v [var|]|u v]; cbn [numbers_of value_of std_of flat_map]; rewrite ?app_nil_r; unfold real_of; try reflexivity.
  rewrite <- app_assoc. f_equal. f_equal. f_equal. destruct var; reflexivity.
Qed.

(** What a label stands for. *)
Theorem C81_labels :
  map label_of ["X"; "Y"; "U"; "V"; "M"; "N"; "T"; "slip_length"; "inertial_energy"; "visc_diss"; "flow_angle"]%string =
    [LField bX; LField bY; LField bU; LField bV; LField bM; LField bN; LField bT; LSlip; LInertial; LVisc; LAngle] /\
  (forall l, ~ In l ["X"; "Y"; "U"; "V"; "M"; "N"; "T"; "slip_length"; "inertial_energy"; "visc_diss"; "flow_angle"]%string -> label_of l = LUnknown) /\
  map (fun l => cutoff_label (Some l)) ["X"; "Y"; "U"; "V"; "M"; "N"; "T"]%string = [CField bX; CField bY; CField bU; CField bV; CField bM; CField bN; CField bT] /\
  (forall l, ~ In l ["X"; "Y"; "U"; "V"; "M"; "N"; "T"]%string -> cutoff_label (Some l) = CUnknown) /\ cutoff_label None = CNone.
Proof.
  split; [reflexivity|]. split; [|split; [reflexivity|split; [|reflexivity]]].
  - intros l H. unfold label_of. repeat match goal with |- context [String.eqb ?a ?b] => destruct (String.eqb_spec a b) as [->|]; [exfalso; apply H; cbn; tauto|] end. reflexivity.
  - intros l H. unfold cutoff_label. repeat match goal with |- context [String.eqb ?a ?b] => destruct (String.eqb_spec a b) as [->|]; [exfalso; apply H; cbn; tauto|] end. reflexivity.
Qed.
Print Assumptions C81_labels.

(** Sampling of maps (C41-C44) with the options of a run. *)
Definition sample_maps (labels : list string) (o : avopts) (maps : list (list bin * Flow.finfo)) : res (option (list Qc * list (list sampled))) :=
  sample_average_files maps (map label_of labels) (av_dt o) (av_xlim o) (av_ylim o) (av_cutoff o) (cutoff_label (av_cutoff_label o)) (av_sum o) (av_viscosity o) (av_floor o).

Section Maps.
Variables (fuel : nat) (labels : list string) (o : avopts).
Let files_of maps := sample_files maps (av_xlim o) (av_ylim o) (map label_of labels) (av_cutoff o) (cutoff_label (av_cutoff_label o)) (av_sum o) (av_viscosity o) (av_floor o).
Let sampled_row (mp : list bin * Flow.finfo) (v : list sampled) : Prop := exists g, limited (av_xlim o) (av_ylim o) (fst mp) (snd mp) = Ok g /\
  sample_labels (fst g) (snd g) (map label_of labels) (av_cutoff o) (cutoff_label (av_cutoff_label o)) (av_sum o) (av_viscosity o) (av_floor o) = Ok v.
Lemma sample_labels_length : forall ls data fi cutoff cl sum mu floor v, sample_labels data fi ls cutoff cl sum mu floor = Ok v -> length v = length ls.
Proof.
  induction ls as [|l ls IH]; intros data fi cutoff cl sum mu floor v H; [injection H as <-; reflexivity|]. cbn [sample_labels] in H.
  destruct (match l with LSlip => _ | _ => _ end) as [data' [x|]]; [|discriminate]. cbn [rbind] in H. destruct (sample_labels data' fi ls cutoff cl sum mu floor) as [vs|] eqn:E; [|discriminate].
  cbn [rbind] in H. injection H as <-. cbn [List.length]. rewrite (IH _ _ _ _ _ _ _ _ E). reflexivity.
Qed.
Lemma files_rows : forall maps rows, files_of maps = Ok (Some rows) -> Forall2 sampled_row maps rows.
Proof.
  unfold files_of, sampled_row. induction maps as [|mp maps IH]; intros rows H; cbn [sample_files] in H; [injection H as <-; constructor|].
  destruct (limited _ _ _ _) as [g|] eqn:EL; [|discriminate]. cbn [rbind] in H. destruct (sample_labels _ _ _ _ _ _ _ _) as [v|] eqn:ES; [|discriminate].
  destruct (sample_files maps _ _ _ _ _ _ _ _) as [[r|]|] eqn:EF; cbn [rbind option_map] in H; try discriminate. injection H as <-. constructor; [exists g; auto|apply IH; reflexivity].
Qed.
Lemma files_app : forall maps rows rest, files_of maps = Ok (Some rows) -> files_of (maps ++ rest) = rmap (option_map (app rows)) (files_of rest).
Proof.
  unfold files_of. induction maps as [|mp maps IH]; intros rows rest H; cbn [sample_files app] in *.
  - injection H as <-. destruct (sample_files rest _ _ _ _ _ _ _ _) as [[r|]|]; reflexivity.
  - destruct (limited _ _ _ _) as [g|]; [|discriminate]. cbn [rbind] in *. destruct (sample_labels _ _ _ _ _ _ _ _) as [v|]; [|discriminate].
    destruct (sample_files maps _ _ _ _ _ _ _ _) as [[r|]|]; cbn [rbind option_map] in H; try discriminate. injection H as <-. rewrite (IH r rest eq_refl).
    destruct (sample_files rest _ _ _ _ _ _ _ _) as [[r'|]|]; reflexivity.
Qed.
Lemma maps_rows maps times columns : sample_maps labels o maps = Ok (Some (times, columns)) ->
  exists rows, files_of maps = Ok (Some rows) /\ Forall2 sampled_row maps rows /\ times = map (fun i => NQ i * av_dt o) (seq 0 (length rows)) /\ length rows = length maps /\
    columns = transpose_samples labels rows /\ labels <> [].
Proof.
  unfold sample_maps, sample_average_files. fold (files_of maps). intros H. destruct (files_of maps) as [[rows|]|] eqn:E; cbn [rbind] in H; try discriminate.
  pose proof (files_rows _ _ E) as F. assert (length rows = length maps) as L by (clear -F; induction F; cbn [List.length]; [reflexivity|f_equal; assumption]). destruct labels as [|l ls] eqn:EL; [discriminate|].
  cbn [map] in H. exists rows. split; [reflexivity|]. split; [exact F|].
  match type of H with Ok (Some (?a, ?b)) = Ok (Some (?c, ?d)) => assert (a = c) as <- by congruence; assert (b = d) as <- by congruence end.
  split; [rewrite L; reflexivity|]. split; [exact L|]. split; [|discriminate]. unfold transpose_samples. cbn [List.length]. rewrite map_length. reflexivity.
Qed.
(** The rows are those of the columns. *)
Lemma rows_columns rows i v : (forall r, In r rows -> length r = length labels) -> nth_error rows i = Some v -> row_of_columns (transpose_samples labels rows) i = v.
Proof.
  intros HL Hi. unfold row_of_columns, transpose_samples. rewrite map_map. specialize (HL v (nth_error_In _ _ Hi)).
  assert (forall j, nth i (map (fun v => nth j v (AngleOf 0 0)) rows) (AngleOf 0 0) = nth j v (AngleOf 0 0)) as K.
  { intros j. apply nth_error_nth. rewrite nth_error_map, Hi. reflexivity. }
  rewrite (map_ext _ _ K). rewrite <- HL. clear. induction v as [|x v IH]; [reflexivity|]. cbn [List.length seq map nth]. f_equal. rewrite <- seq_shift, map_map. exact IH.
Qed.
End Maps.

Lemma nth_seq s n i : (i < n)%nat -> nth_error (seq s n) i = Some (s + i)%nat.
Proof. revert s i. induction n as [|n IH]; intros s [|i] H; cbn; try lia; [f_equal; lia|]. rewrite IH by lia. f_equal. lia. Qed.
Section Run.
Variables (ffuel fuel : nat) (en : env) (t : avtexts) (labels : list string) (o : avopts) (d : disk) (base : string) (fo : fopts) (n m : nat)
  (maps : list (list bin * Flow.finfo)) (times : list Qc) (columns : list (list sampled)) (stop : option (option exn)).
Let begin := match o_begin fo with Some b => b | None => 1%Z end.
Let e := match o_end fo with Some e => e | None => Inf end.
Let ext := match o_ext fo with Some x => x | None => ".dat"%string end.
Let name i := fname base (begin + Z.of_nat i) ext.
Hypothesis Hf : (n < ffuel)%nat.
Hypothesis Hr : run_length (fun z => match e with Upto m => (z <= m)%Z | Inf => True end /\ exists_path d (os_path (fname base z ext)) = true) begin n.
Hypothesis Hm : (m <= n)%nat.
Hypothesis HL : length maps = m.
Hypothesis HS : forall i mp, nth_error maps i = Some mp -> flow_file fuel (Average.content d (name i)) = Ok mp.
Hypothesis HM : sample_maps labels o maps = Ok (Some (times, columns)).
Hypothesis HE : match stop with None => m = n | Some err => (m < n)%nat /\ average_step fuel labels o m (Average.content d (name m)) = Stop err end.
Let result : res (option (list Qc * list (list sampled))) := match stop with None => Ok (Some (times, columns)) | Some None => Ok None | Some (Some err) => Err err end.
Let names := map (fun k => fname base k ext) (numbers begin m).
Let tail := map (fun k => fname base k ext) (numbers (begin + Z.of_nat m) (n - m)).
Lemma found : exists w, Utils.find_datamap_singles ffuel (fun s => exists_path d (os_path s)) base begin e ext = Ok (names ++ tail, w).
Proof.
  unfold Utils.find_datamap_singles. rewrite (yield_singles_run _ _ _ _ n); [|exact Hr|exact Hf]. unfold names, tail. rewrite <- (names_split base ext begin n m Hm). eexists. reflexivity.
Qed.
Lemma steps : exists rows outs, times = map (fun i => NQ i * av_dt o) (seq 0 (length rows)) /\ columns = transpose_samples labels rows /\ labels <> [] /\
  @rows_in (list sampled) outs = rows /\ text_in outs = flat_map (fun i => line_of (nth i times 0) (row_of_columns columns i)) (seq 0 (length times)) /\
  length names = length outs /\
  (forall k nm x, nth_error names k = Some nm -> nth_error outs k = Some x -> average_step fuel labels o k (Average.content d nm) = as_outcome x) /\
  loop_ends (average_step fuel labels o) d (length outs) tail stop.
Proof.
  destruct (maps_rows _ _ _ _ _ HM) as (rows & EF & F & ET & ELn & EC & NL). exists rows, (map (fun i => let v := nth i rows [] in Some (v, average_line (NQ i * av_dt o) v)) (seq 0 (length rows))).
  split; [exact ET|]. split; [exact EC|]. split; [exact NL|].
  assert (forall r, In r rows -> length r = length labels) as RL.
  { clear -F. induction F as [|mp v ms vs (g & _ & K) F IH]; intros r Hin; [destruct Hin|]. destruct Hin as [<-|Hin]; [|exact (IH r Hin)]. rewrite (sample_labels_length _ _ _ _ _ _ _ _ _ K), map_length. reflexivity. }
  assert (forall i, (i < length rows)%nat -> nth_error rows i = Some (nth i rows [])) as NTH by (intros i Hi; apply nth_error_nth'; exact Hi).
  split; [|split; [|split; [|split]]].
  - unfold rows_in. rewrite flat_map_concat_map, map_map. cbv zeta. clear. rewrite <- flat_map_concat_map. induction rows as [|r rows IH]; [reflexivity|]. cbn [length seq flat_map nth app]. f_equal.
    rewrite <- seq_shift, flat_map_concat_map, map_map, <- flat_map_concat_map. exact IH.
  - unfold text_in. rewrite flat_map_concat_map, map_map, <- flat_map_concat_map. rewrite ET, map_length, seq_length.
    rewrite !flat_map_concat_map. f_equal. apply map_ext_in. intros i Hi. apply in_seq in Hi. rewrite line_eq. f_equal.
    + symmetry. apply nth_error_nth. rewrite nth_error_map. rewrite (nth_seq 0 (length rows) i) by lia. reflexivity.
    + rewrite EC. symmetry. apply rows_columns; [exact RL|]. apply NTH. lia.
  - unfold names. rewrite !map_length, numbers_length, seq_length. rewrite ELn. symmetry. exact HL.
  - intros k nm x Hn Hx. rewrite nth_error_map in Hx. destruct (nth_error (seq 0 (length rows)) k) as [k'|] eqn:EK; [|discriminate]. cbn [option_map] in Hx. injection Hx as <-.
    assert (k < length rows)%nat as Hk by (rewrite <- (seq_length (length rows) 0); apply nth_error_Some; congruence).
    rewrite (nth_seq 0 (length rows) k) in EK by lia. injection EK as <-. cbn [as_outcome plus].
    unfold names in Hn. rewrite nth_error_map, (numbers_nth _ _ _ (ltac:(lia) : (k < m)%nat)) in Hn. injection Hn as <-. fold (name k).
    specialize (NTH k Hk). set (v := nth k rows []) in *. clearbody v.
    assert (exists mp, nth_error maps k = Some mp /\ exists g, limited (av_xlim o) (av_ylim o) (fst mp) (snd mp) = Ok g /\
       sample_labels (fst g) (snd g) (map label_of labels) (av_cutoff o) (cutoff_label (av_cutoff_label o)) (av_sum o) (av_viscosity o) (av_floor o) = Ok v) as (mp & Hmp & g & EG & EV).
    { clear -F NTH. revert k NTH. induction F as [|mp w ms vs K F IH]; intros k NTH; [destruct k; discriminate|]. destruct k as [|k]; cbn [nth_error] in *; [injection NTH as ->; exists mp; split; [reflexivity|exact K]|exact (IH k NTH)]. }
    unfold average_step. rewrite (HS k mp Hmp). destruct mp as [b fi]. cbn [rbind fst snd] in *. rewrite EG. destruct g as [b' fi']. cbn [fst snd] in EV. rewrite EV. reflexivity.
  - rewrite map_length, seq_length, ELn, HL. unfold loop_ends, tail. destruct stop as [err|].
    + destruct HE as [Hlt HE']. destruct (n - m)%nat eqn:E; [lia|]. cbn [numbers map]. exact HE'.
    + subst m. rewrite HE, Nat.sub_diag. exact I.
Qed.
Lemma average_unsaved : sample_average_run ffuel fuel en t labels o d base "" fo = (d, result).
Proof.
  unfold sample_average_run. unfold Utils.pop_fileopts. cbn [Utils.f_begin Utils.f_end Utils.f_ext o_begin o_end o_ext o_outext].
  change (Utils.dflt 1%Z (o_begin fo)) with begin. change (Utils.dflt Inf (o_end fo)) with e. change (Utils.dflt ".dat"%string (o_ext fo)) with ext.
  destruct found as [w ->]. unfold average_header, output_of. change (String.eqb "" "") with true. cbv iota.
  destruct steps as (rows & outs & ET & EC & NL & ER & _ & L1 & H1 & H2). rewrite (sampling_unsaved _ d tail stop names outs 0 L1 H1 H2). rewrite ER.
  unfold result. destruct stop as [[err|]|]; try reflexivity. rewrite ET, EC. destruct labels; [congruence|reflexivity].
Qed.
Lemma average_saved out : wf d -> out <> ""%string -> (forall i, (i < n)%nat -> os_path (name i) <> os_path out) ->
  let text := average_text (full_header en t labels begin e) times columns in
  exists d', sample_average_run ffuel fuel en t labels o d base out fo = (d', result) /\
    wf d' /\ lookup (files d') (os_path out) = Some (string_of text) /\
    (forall q, exists_path d q = true -> q <> os_path out -> lookup (files d') q = lookup (files d) q) /\
    Permutation (contents d') (contents d ++ [string_of text]).
Proof.
  intros Hw Ho Hn text. unfold sample_average_run. unfold Utils.pop_fileopts. cbn [Utils.f_begin Utils.f_end Utils.f_ext o_begin o_end o_ext o_outext].
  change (Utils.dflt 1%Z (o_begin fo)) with begin. change (Utils.dflt Inf (o_end fo)) with e. change (Utils.dflt ".dat"%string (o_ext fo)) with ext.
  destruct found as [w ->]. unfold output_of. destruct (String.eqb_spec out ""); [contradiction|]. cbv iota.
  destruct steps as (rows & outs & ET & EC & NL & ER & TX & L1 & H1 & H2).
  match goal with |- context [average_header en t labels ?op] => assert (exists h2, average_header en t labels op = (first_header en, Some h2) /\ first_header en ++ h2 = full_header en t labels begin e) as (h2 & -> & EH) end.
  { unfold average_header. destruct labels as [|l ls]; [congruence|]. eexists. split; [reflexivity|]. destruct ls; reflexivity. }
  cbv zeta. match goal with |- context [Utils.do_call d (os_path out, ?c)] => set (chunks := c) end.
  destruct (do_call_spec d (os_path out) chunks Hw) as (d1 & E1 & _). rewrite E1.
  destruct (sampling_written (average_step fuel labels o) d out chunks d1 names tail outs stop Hw E1) as (d2 & E2 & W2 & K2 & O2 & P2); [|exact L1|exact H1|exact H2|].
  { unfold names, tail. rewrite <- (names_split base ext begin n m Hm). intros s Hs. destruct (names_in _ _ _ _ _ Hs) as (i & Hi & ->). split; [exact (Hn i Hi)|].
    destruct Hr as [R1 _]. exact (proj2 (R1 (Z.of_nat i) ltac:(lia))). }
  rewrite E2, ER.
  assert ((String.concat "" chunks ++ string_of (text_in outs))%string = string_of text) as EX.
  { assert (chunks = map string_of [text_lines (first_header en); text_lines h2]) as -> by reflexivity.
    rewrite concat_string_of, <- string_of_app. f_equal. cbn [concat]. rewrite app_nil_r, TX. unfold text, average_text. rewrite <- EH. unfold text_lines. rewrite flat_map_app. reflexivity. }
  rewrite EX in K2, P2. exists d2. split; [|auto]. f_equal. unfold result. destruct stop as [[err|]|]; try reflexivity. rewrite ET, EC. destruct labels; [congruence|reflexivity].
Qed.
End Run.

(** ** The run *)
(** All files can be read and sampled: times and columns are those of the maps, and the output has them below the header; no other file changes, and if
    there was an output before its content is kept. *)
Theorem C81_run : forall ffuel fuel en t labels o d base out fo n maps times columns, wf d -> out <> ""%string ->
  let begin := match o_begin fo with Some b => b | None => 1%Z end in
  let e := match o_end fo with Some e => e | None => Inf end in
  let ext := match o_ext fo with Some x => x | None => ".dat"%string end in
  let name i := fname base (begin + Z.of_nat i) ext in
  let text := average_text (full_header en t labels begin e) times columns in
  (n < ffuel)%nat ->
  run_length (fun z => match e with Upto m => (z <= m)%Z | Inf => True end /\ exists_path d (os_path (fname base z ext)) = true) begin n ->
  (forall i, (i < n)%nat -> os_path (name i) <> os_path out) ->
  length maps = n -> (forall i mp, nth_error maps i = Some mp -> flow_file fuel (Average.content d (name i)) = Ok mp) ->
  sample_maps labels o maps = Ok (Some (times, columns)) ->
  exists d', sample_average_run ffuel fuel en t labels o d base out fo = (d', Ok (Some (times, columns))) /\
    wf d' /\ lookup (files d') (os_path out) = Some (string_of text) /\
    (forall q, exists_path d q = true -> q <> os_path out -> lookup (files d') q = lookup (files d) q) /\
    Permutation (contents d') (contents d ++ [string_of text]).
Proof.
  intros ffuel fuel en t labels o d base out fo n maps times columns Hw Ho begin e ext name text Hf Hr Hn HL HS HM.
  exact (average_saved ffuel fuel en t labels o d base fo n n maps times columns None Hf Hr (le_n n) HL HS HM eq_refl out Hw Ho Hn).
Qed.
Print Assumptions C81_run.
(** File [m] can be read but not sampled: None is returned; the lines of the files before it are in the output. *)
Theorem C81_not_sampled : forall ffuel fuel en t labels o d base out fo n m maps mp times columns, wf d -> out <> ""%string ->
  let begin := match o_begin fo with Some b => b | None => 1%Z end in
  let e := match o_end fo with Some e => e | None => Inf end in
  let ext := match o_ext fo with Some x => x | None => ".dat"%string end in
  let name i := fname base (begin + Z.of_nat i) ext in
  let text := average_text (full_header en t labels begin e) times columns in
  (n < ffuel)%nat ->
  run_length (fun z => match e with Upto m => (z <= m)%Z | Inf => True end /\ exists_path d (os_path (fname base z ext)) = true) begin n ->
  (forall i, (i < n)%nat -> os_path (name i) <> os_path out) ->
  (m < n)%nat -> length maps = m -> (forall i mp', nth_error (maps ++ [mp]) i = Some mp' -> flow_file fuel (Average.content d (name i)) = Ok mp') ->
  sample_maps labels o maps = Ok (Some (times, columns)) -> sample_maps labels o (maps ++ [mp]) = Ok None ->
  exists d', sample_average_run ffuel fuel en t labels o d base out fo = (d', Ok None) /\
    wf d' /\ lookup (files d') (os_path out) = Some (string_of text) /\
    (forall q, exists_path d q = true -> q <> os_path out -> lookup (files d') q = lookup (files d) q) /\
    Permutation (contents d') (contents d ++ [string_of text]).
Proof.
  intros ffuel fuel en t labels o d base out fo n m maps mp times columns Hw Ho begin e ext name text Hf Hr Hn Hm HL HS HM HN.
  refine (average_saved ffuel fuel en t labels o d base fo n m maps times columns (Some None) Hf Hr (Nat.lt_le_incl _ _ Hm) HL _ HM (conj Hm _) out Hw Ho Hn).
  - intros i mp' Hi. apply HS. rewrite nth_error_app1; [exact Hi|]. apply nth_error_Some. congruence.
  - fold begin ext. specialize (HS m mp). rewrite nth_error_app2, HL, Nat.sub_diag in HS by lia. specialize (HS eq_refl). unfold name in HS. unfold average_step. rewrite HS.
    destruct (maps_rows _ _ _ _ _ HM) as (rows & EF & _). unfold sample_maps, sample_average_files in HN. rewrite (files_app _ _ _ _ _ EF) in HN. cbn [sample_files] in HN.
    destruct mp as [b fi]. cbn [rbind fst snd] in *. destruct (limited _ _ b fi) as [[b' fi']|]; [|discriminate]. cbn [rbind fst snd rmap] in *.
    destruct (sample_labels b' fi' _ _ _ _ _ _) as [v|]; [|reflexivity]. cbn [rbind rmap option_map] in HN. destruct (map label_of labels); discriminate.
Qed.
Print Assumptions C81_not_sampled.
(** File [m] cannot be read, or cut to the limits: the exception ends the run; the lines of the files before it are in the output. *)
Theorem C81_failing_file : forall ffuel fuel en t labels o d base out fo n m maps times columns err, wf d -> out <> ""%string ->
  let begin := match o_begin fo with Some b => b | None => 1%Z end in
  let e := match o_end fo with Some e => e | None => Inf end in
  let ext := match o_ext fo with Some x => x | None => ".dat"%string end in
  let name i := fname base (begin + Z.of_nat i) ext in
  let text := average_text (full_header en t labels begin e) times columns in
  (n < ffuel)%nat ->
  run_length (fun z => match e with Upto m => (z <= m)%Z | Inf => True end /\ exists_path d (os_path (fname base z ext)) = true) begin n ->
  (forall i, (i < n)%nat -> os_path (name i) <> os_path out) ->
  (m < n)%nat -> length maps = m -> (forall i mp, nth_error maps i = Some mp -> flow_file fuel (Average.content d (name i)) = Ok mp) ->
  sample_maps labels o maps = Ok (Some (times, columns)) ->
  (flow_file fuel (Average.content d (name m)) = Err err \/
   exists mp, flow_file fuel (Average.content d (name m)) = Ok mp /\ sample_maps labels o (maps ++ [mp]) = Err err) ->
  exists d', sample_average_run ffuel fuel en t labels o d base out fo = (d', Err err) /\
    wf d' /\ lookup (files d') (os_path out) = Some (string_of text) /\
    (forall q, exists_path d q = true -> q <> os_path out -> lookup (files d') q = lookup (files d) q) /\
    Permutation (contents d') (contents d ++ [string_of text]).
Proof.
  intros ffuel fuel en t labels o d base out fo n m maps times columns err Hw Ho begin e ext name text Hf Hr Hn Hm HL HS HM HE.
  refine (average_saved ffuel fuel en t labels o d base fo n m maps times columns (Some (Some err)) Hf Hr (Nat.lt_le_incl _ _ Hm) HL HS HM (conj Hm _) out Hw Ho Hn).
  fold begin ext. fold (name m). unfold average_step. destruct HE as [-> | (mp & -> & HN)]; [reflexivity|].
  destruct (maps_rows _ _ _ _ _ HM) as (rows & EF & _ & _ & _ & _ & NL). unfold sample_maps, sample_average_files in HN. rewrite (files_app _ _ _ _ _ EF) in HN. cbn [sample_files] in HN.
  destruct mp as [b fi]. cbn [rbind fst snd] in *. destruct (limited _ _ b fi) as [[b' fi']|]; [|cbn [rbind rmap] in *; congruence]. cbn [rbind fst snd rmap] in *.
  destruct (sample_labels b' fi' _ _ _ _ _ _) as [v|]; cbn [rbind rmap option_map] in HN; [|discriminate]. destruct labels as [|l ls]; [congruence|]. cbn [map] in HN. discriminate.
Qed.
Print Assumptions C81_failing_file.
(** Without an output the disk is left as it is, and the result is the same. *)
Theorem C81_not_saved : forall ffuel fuel en t labels o d base fo n maps times columns,
  let begin := match o_begin fo with Some b => b | None => 1%Z end in
  let e := match o_end fo with Some e => e | None => Inf end in
  let ext := match o_ext fo with Some x => x | None => ".dat"%string end in
  (n < ffuel)%nat ->
  run_length (fun z => match e with Upto m => (z <= m)%Z | Inf => True end /\ exists_path d (os_path (fname base z ext)) = true) begin n ->
  length maps = n -> (forall i mp, nth_error maps i = Some mp -> flow_file fuel (Average.content d (fname base (begin + Z.of_nat i) ext)) = Ok mp) ->
  sample_maps labels o maps = Ok (Some (times, columns)) ->
  sample_average_run ffuel fuel en t labels o d base "" fo = (d, Ok (Some (times, columns))).
Proof.
  intros ffuel fuel en t labels o d base fo n maps times columns begin e ext Hf Hr HL HS HM.
  exact (average_unsaved ffuel fuel en t labels o d base fo n n maps times columns None Hf Hr (le_n n) HL HS HM eq_refl).
Qed.
Print Assumptions C81_not_saved.
(** Without labels there is an IndexError; the output then has the first part of the header only. *)
Theorem C81_no_labels : forall ffuel fuel en t o d base out fo n, wf d ->
  let begin := match o_begin fo with Some b => b | None => 1%Z end in
  let e := match o_end fo with Some e => e | None => Inf end in
  let ext := match o_ext fo with Some x => x | None => ".dat"%string end in
  (n < ffuel)%nat ->
  run_length (fun z => match e with Upto m => (z <= m)%Z | Inf => True end /\ exists_path d (os_path (fname base z ext)) = true) begin n -> out <> ""%string ->
  exists d', sample_average_run ffuel fuel en t [] o d base out fo = (d', Err IndexErr) /\ lookup (files d') (os_path out) = Some (string_of (average_text (first_header en) [] [])).
Proof.
  intros ffuel fuel en t o d base out fo n Hw begin e ext Hf Hr Ho. unfold sample_average_run. unfold Utils.pop_fileopts. cbn [Utils.f_begin Utils.f_end Utils.f_ext o_begin o_end o_ext o_outext].
  change (Utils.dflt 1%Z (o_begin fo)) with begin. change (Utils.dflt Inf (o_end fo)) with e. change (Utils.dflt ".dat"%string (o_ext fo)) with ext.
  unfold Utils.find_datamap_singles. rewrite (yield_singles_run _ _ _ _ n); [|exact Hr|exact Hf]. unfold output_of. destruct (String.eqb_spec out ""); [contradiction|]. cbv iota. cbn [average_header].
  cbv zeta. match goal with |- context [Utils.do_call d (os_path out, ?c)] => set (chunks := c) end.
  destruct (do_call_spec d (os_path out) chunks Hw) as (d1 & E1 & _ & _ & L1 & _). rewrite E1. exists d1. split; [reflexivity|]. rewrite L1. f_equal. unfold chunks. cbn [String.concat]. f_equal.
  unfold average_text. cbn [length seq flat_map app]. rewrite app_nil_r. reflexivity.
Qed.
Print Assumptions C81_no_labels.

(** ** Reading it back *)
(** The words of a line: the time, then the numbers; each word is the text of the number nearest to what was sampled, 'nan' for no number. *)
Definition shows_number (x : option R) (w : bytes) : Prop :=
  match x with Some x => exists y, float_text (string_of w) (Fin y) /\ nearest_significant 6 x y | None => float_text (string_of w) NaN end.
Theorem C81_words : forall t row, exists ws, words (line_of t row) = fmt_fixed 3 t :: ws /\ Forall2 shows_number (flat_map numbers_of row) ws /\
  exists t', to_float (fmt_fixed 3 t) = Ok t' /\ nearest_decimal 3 t t'.
Proof.
  intros t row. exists (map fmt_g_opt (flat_map numbers_of row)). split; [|split; [|exists (round_dec 3 t); split; [apply to_float_fixed; lia|apply round_dec_nearest]]].
  - unfold line_of. set (xs := flat_map numbers_of row). destruct (fmt_fixed_plain 3 t ltac:(lia)) as [P N].
    assert (forall l, words (flat_map (fun x => sp ++ fmt_g_opt x) l ++ nl) = map fmt_g_opt l) as K.
    { induction l as [|x l IH]; [reflexivity|]. cbn [flat_map map app]. destruct (fmt_g_opt_dark x) as [D NE]. apply dark_plain in D. change ((sp ++ fmt_g_opt x) ++ flat_map (fun x => sp ++ fmt_g_opt x) l) with (chr 32 :: fmt_g_opt x ++ flat_map (fun x => sp ++ fmt_g_opt x) l).
      change (words ((chr 32 :: ?s) ++ nl)) with (words (s ++ nl)). rewrite <- app_assoc. destruct l as [|y l].
      - cbn [flat_map app]. change nl with [chr 10]. rewrite words_space; [reflexivity|exact D|exact NE|reflexivity].
      - cbn [flat_map]. change ((sp ++ fmt_g_opt y) ++ ?s) with (chr 32 :: (fmt_g_opt y ++ s)). cbn [app]. rewrite words_space; [|exact D|exact NE|reflexivity]. f_equal.
        rewrite <- IH. cbn [flat_map]. reflexivity. }
    destruct xs as [|x xs]; [cbn [flat_map app map]; change nl with [chr 10]; rewrite words_space; [reflexivity|exact P|exact N|reflexivity]|].
    change (flat_map (fun x => sp ++ fmt_g_opt x) (x :: xs) ++ nl) with (chr 32 :: (fmt_g_opt x ++ flat_map (fun x => sp ++ fmt_g_opt x) xs) ++ nl).
    rewrite words_space; [|exact P|exact N|reflexivity]. f_equal. exact (K (x :: xs)).
  - induction (flat_map numbers_of row) as [|x xs IH]; cbn [map]; constructor; [|exact IH]. destruct x as [x|]; cbn [shows_number fmt_g_opt]; [apply fmt_g_text|apply fmt_g_nan].
Qed.
Print Assumptions C81_words.
(** The lines of the header are comments if no text in it has a line break. *)
Import InterfaceFilesProps InterfaceRunProps.
Theorem C81_header : forall en t labels begin last,
  one_line (e_module en) -> one_line (e_date en) -> one_line (e_version en) -> one_line (at_labels t) -> one_line (at_base t) -> one_line (at_cutoff t) -> one_line (at_cutoff_label t) ->
  Forall (fun l => one_line (bytes_of l)) labels -> Forall comment_line (full_header en t labels begin last).
Proof.
  intros en t labels begin last H1 H2 H3 H4 H5 H6 H7 HLab.
  assert (forall s t, one_line s -> one_line t -> comment_line (chr 35 :: s ++ t)) as C.
  { intros s u Hs Ht. exists (s ++ u). split; [reflexivity|]. apply Forall_app. split; assumption. }
  assert (forall s, one_line s -> comment_line (chr 35 :: s)) as C0 by (intros s Hs; exists s; split; [reflexivity|exact Hs]).
  assert (one_line (fmt_int begin ++ txt ", " ++ match last with Upto z => fmt_int z | Inf => txt "inf" end)) as B.
  { apply Forall_app; split; [apply one_line_int|]. apply Forall_app; split; [lit|]. destruct last; [apply one_line_int|lit]. }
  assert (one_line (match labels with [l] => bytes_of l ++ txt " [std]" | _ => join sp (map bytes_of labels) end)) as V.
  { assert (one_line (join sp (map bytes_of labels))) as J.
    { induction HLab as [|l ls Hl HLab IH]; [constructor|]. cbn [map join]. destruct ls as [|l' ls]; [exact Hl|]. cbn [map] in *. apply Forall_app; split; [exact Hl|]. apply Forall_app; split; [lit|exact IH]. }
    destruct labels as [|l [|l' ls]]; [exact J| |exact J]. inversion HLab; subst. apply Forall_app; split; [assumption|lit]. }
  unfold full_header, first_header. cbn [app].
  repeat (apply Forall_cons; [match goal with
  | |- comment_line (txt ?s ++ ?t) => apply (C (tl (txt s)) t); [lit|assumption]
  | |- comment_line (txt ?s) => apply (C0 (tl (txt s))); lit
  end|]). apply Forall_nil.
Qed.
Print Assumptions C81_header.

(** A run over two maps with the sums of U and of V, and a step of time of 2; the header says 1.0. *)
Definition ex_opts : avopts := mkAv true (ZQ 2) None None 1 0 (None, None) (None, None).
Definition ex_texts : avtexts := mkAvtexts (txt "('U', 'V')") (txt "'/map_'") (txt "None") (txt "None").
Definition av_env : env := mkEnv (txt "m") (txt "now") (txt "1") (txt "/").
Definition ex_columns : list (list sampled) := [[Number (Fin 0) None; Number (Fin 0) None]; [Number (Fin 0) None; Number (Fin 0) None]].
Lemma ex_sampled : sample_maps ["U"; "V"]%string ex_opts file_maps = Ok (Some ([NQ 0 * ZQ 2; NQ 1 * ZQ 2], ex_columns)).
Proof. vm_compute. reflexivity. Qed.
Lemma fmt_g_0 : fmt_g (QR 0%Qc) = txt "0".
Proof. unfold fmt_g. rewrite QR_0. destruct (Req_EM_T 0 0) as [_|N]; [reflexivity|exfalso; apply N; reflexivity]. Qed.
Lemma av_text : average_text (full_header av_env ex_texts ["U"; "V"]%string 1 Inf) [NQ 0 * ZQ 2; NQ 1 * ZQ 2] ex_columns =
  flat_map (fun l => l ++ nl) (full_header av_env ex_texts ["U"; "V"]%string 1 Inf) ++ txt "0.000 0 0" ++ nl ++ txt "2.000 0 0" ++ nl.
Proof.
  unfold average_text. f_equal. unfold ex_columns, row_of_columns, line_of. cbn [length seq flat_map map nth app numbers_of fmt_g_opt]. rewrite !fmt_g_0. vm_compute. reflexivity.
Qed.
Lemma av_run : exists d', sample_average_run 10 60 av_env ex_texts ["U"; "V"]%string ex_opts InterfaceFilesProps.ex_disk "map_" "u.xvg" InterfaceFilesProps.ex_fo =
    (d', Ok (Some ([NQ 0 * ZQ 2; NQ 1 * ZQ 2], ex_columns))) /\
  lookup (files d') (os_path "u.xvg") = Some (string_of (flat_map (fun l => l ++ nl) (full_header av_env ex_texts ["U"; "V"]%string 1 Inf) ++ txt "0.000 0 0" ++ nl ++ txt "2.000 0 0" ++ nl)).
Proof.
  assert (wf InterfaceFilesProps.ex_disk) as Hw by (unfold wf, InterfaceFilesProps.ex_disk; cbn [files map fst]; repeat constructor; vm_compute; intuition discriminate).
  assert (forall i, (i < 2)%nat -> os_path (fname "map_" (1 + Z.of_nat i) ".dat") <> os_path "u.xvg") as HA.
  { intros i Hi. assert (i = 0 \/ i = 1)%nat as [-> | ->] by lia; vm_compute; discriminate. }
  destruct (C81_run 10 60 av_env ex_texts ["U"; "V"]%string ex_opts InterfaceFilesProps.ex_disk "map_" "u.xvg" InterfaceFilesProps.ex_fo 2 file_maps _ _ Hw ltac:(discriminate) ltac:(lia)
    InterfaceFilesProps.ex_run HA eq_refl InterfaceFilesProps.ex_reads ex_sampled) as (d' & E & _ & L & _).
  cbn [InterfaceFilesProps.ex_fo o_begin o_end] in L. rewrite av_text in L. exists d'. split; [exact E|exact L].
Qed.
Example C81_ex := av_run.
Theorem C81_delta_t_refuted : ~ (forall ffuel fuel en t labels o d base out fo d' r, wf d -> out <> ""%string ->
  sample_average_run ffuel fuel en t labels o d base out fo = (d', Ok (Some r)) ->
  exists text, lookup (files d') (os_path out) = Some text /\ has_line (txt "#   Delta-t: " ++ fmt_fixed 1 (av_dt o)) text).
Proof.
  intros H. destruct av_run as (d' & E & L). assert ("u.xvg" <> "")%string as NE by discriminate.
  assert (wf InterfaceFilesProps.ex_disk) as Hw by (unfold wf, InterfaceFilesProps.ex_disk; cbn [files map fst]; repeat constructor; vm_compute; intuition discriminate).
  destruct (H _ _ _ _ _ _ _ _ _ _ _ _ Hw NE E) as (text & L' & HT).
  remember (string_of (flat_map (fun l => l ++ nl) (full_header av_env ex_texts ["U"; "V"]%string 1 Inf) ++ txt "0.000 0 0" ++ nl ++ txt "2.000 0 0" ++ nl)) as s eqn:Es.
  assert (text = s) as -> by congruence. clear L L' E H. unfold has_line in HT. apply (in_map string_of) in HT. change (av_dt ex_opts) with (ZQ 2) in HT.
  assert (existsb (String.eqb (string_of (txt "#   Delta-t: " ++ fmt_fixed 1 (ZQ 2)))) (map string_of (flines (bytes_of s))) = true) as K by (apply existsb_exists; eexists; split; [exact HT|apply String.eqb_refl]).
  assert (existsb (String.eqb (string_of (txt "#   Delta-t: " ++ fmt_fixed 1 (ZQ 2)))) (map string_of (flines (bytes_of s))) = false) as N by (rewrite Es; vm_compute; reflexivity). rewrite N in K. discriminate.
Qed.
Print Assumptions C81_delta_t_refuted.
