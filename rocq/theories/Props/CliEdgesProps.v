(** C78, C79: the contact line commands, with their effects on files. *)
From Coq Require Import String Ascii Permutation.
From Verif.Base Require Import QcX Res Np Bytes.
From Verif.Model Require Import Text PyText Click Cli CliRuns.
From Verif.Spec Require Import CliSpec CliReads.
From Verif.Spec Require FilesSpec DiskSpec.
From Verif.Proofs Require Import TextP PyTextP ClickP CliP CliTextP.
From Verif.Props Require Import CliProps CliTextProps CliEndProps CliRunsProps.
From Verif.Model Require Utils Formats InterfaceFiles EdgesFiles.
From Verif.Props Require EdgesRunProps.
Local Open Scope string_scope.
Local Open Scope list_scope.
Local Notation length := List.length.

Definition group_word (dashed : bool) : string := if dashed then "contact-line" else "contact_line".
Definition edge_options : list (string * nat) :=
  [("-av", 1); ("--average", 1); ("--rolling", 0); ("--norolling", 0); ("--recenter", 0); ("--norecenter", 0)]%nat.
Definition area_options : list (string * nat) := [("--floor", 1); ("-ea", 2); ("--extract_area", 2); ("-eh", 1); ("--extract_height", 1)]%nat.
(** 'strata contact-line collect'. *)
Definition contact_collect_options : list (string * nat) := edge_options ++ [("--fuse", 0); ("--nofuse", 0)]%nat ++ area_options ++ cutoff_options ++ range_options ++ help_options.
Theorem C78_contact_collect w dashed d argv occs base output av rolling rec fuse floor area height cutoff radius bins b e x :
  writes (takes contact_collect_options) argv occs [base; output] -> not_given occs help ->
  chosen occs ["-av"; "--average"] (int_from 1) 1%Z av -> switched occs ["--rolling"] ["--norolling"] false rolling -> switched occs ["--recenter"] ["--norecenter"] true rec ->
  switched occs ["--fuse"] ["--nofuse"] false fuse -> chosen occs ["--floor"] (some_of number_text) None floor -> chosen2 occs ["-ea"; "--extract_area"] number_text (ZQ 1, ZQ 1) area ->
  chosen occs ["-eh"; "--extract_height"] number_text (ZQ 0) height -> chosen occs ["-co"; "--cutoff"] (some_of number_text) None cutoff ->
  chosen occs ["-cr"; "--cutoff_radius"] number_text (ZQ 1) radius -> chosen occs ["-cb"; "--cutoff_bins"] int_text 1%Z bins ->
  chosen occs ["-b"; "--begin"] (int_from 0) 1%Z b -> chosen occs ["-e"; "--end"] (some_of (int_from 0)) None e -> chosen occs ["--ext"] as_is ".dat" x ->
  program w dashed d (group_word dashed :: "collect" :: argv) =
  ends (EdgesFiles.extract_run (w_ffuel w) (w_fuel w)
    {| EdgesFiles.eo_cutoff := cutoff; EdgesFiles.eo_radius := Some radius; EdgesFiles.eo_bins := bins; EdgesFiles.eo_floor := floor; EdgesFiles.eo_area := area; EdgesFiles.eo_height := height;
       EdgesFiles.eo_average := av; EdgesFiles.eo_rolling := rolling; EdgesFiles.eo_recenter := rec; EdgesFiles.eo_quiet := false |} fuse d base output (files_from b e x)).
Proof.
  intros Hw Hh Hav Hro Hre Hfu Hfl Har Hht Hco Hcr Hcb Hb He Hext.
  assert (parse d contact_line_collect_cmd argv = Parsed [VText base; VText output]
    (combine (map o_key (c_opts contact_line_collect_cmd))
       [VInt av; VBool rolling; VBool rec; VBool fuse; vopt vnum floor; VTuple [vnum (fst area); vnum (snd area)]; vnum height; vopt vnum cutoff; vnum radius; VInt bins; VInt b; vopt VInt e; VText x])) as HP.
  { apply (parse_ok d contact_line_collect_cmd contact_collect_options argv occs [base; output]); [reflexivity|reflexivity|exact Hw|exact Hh|reflexivity|].
    repeat constructor.
      + exact (v_range d occs _ _ "average" _ _ Hav).
      + exact (value_flag d occs _ _ "rolling" _ _ Hro).
      + exact (value_flag d occs _ _ "recenter" _ _ Hre).
      + exact (value_flag d occs _ _ "fuse" _ _ Hfu).
      + exact (v_some_num d occs _ "floor" _ _ Hfl).
      + exact (value_two d occs _ "extract_area" KFloat number_text vnum _ _ (cv_num d) Har).
      + exact (v_num d occs _ "extract_height" _ _ Hht).
      + exact (v_some_num d occs _ "cutoff" _ _ Hco).
      + exact (v_num d occs _ "cutoff_radius" _ _ Hcr).
      + exact (v_int d occs _ "cutoff_bins" _ _ Hcb).
      + exact (v_range d occs _ _ "begin" _ _ Hb).
      + exact (v_some_range d occs _ _ "end" _ _ He).
      + exact (v_text d occs _ "ext" _ _ Hext). }
  set (kw := combine _ _) in HP.
  assert (exists kw', strata dashed d (group_word dashed :: "collect" :: argv) = ACall "extract_contact_line_bins" [VText base; VText output] kw' Ignore /\
     contact_collect_args [VText base; VText output] kw' = Ok (base, output, EdgesFiles.mkEdgeOpts cutoff (Some radius) bins floor area height av rolling rec false, fuse, files_from b e x)) as (kw' & E1 & E3).
  { assert (strata dashed d (group_word dashed :: "collect" :: argv) = Cli.run d contact_line_collect_cmd contact_line_collect_body argv) as -> by (destruct dashed; reflexivity). unfold Cli.run. rewrite HP.
    subst kw. clear. destruct e as [e|], floor as [floor|], cutoff as [cutoff|], area as [a1 a2]; (eexists; split; reflexivity). }
  unfold program. rewrite E1. unfold library_all. change (library w d "extract_contact_line_bins" [VText base; VText output] kw') with (@None (Utils.disk * res returned)).
  change (String.eqb "extract_contact_line_bins" "sample_average_files") with false. change (String.eqb "extract_contact_line_bins" "sample_interfaces") with false.
  change (String.eqb "extract_contact_line_bins" "interface_contact_angle") with false. change (String.eqb "extract_contact_line_bins" "view_interfaces") with false.
  change (String.eqb "extract_contact_line_bins" "extract_contact_line_bins") with true. cbv iota.
  rewrite E3. cbn [call]. unfold ends.
  match goal with |- context [EdgesFiles.extract_run ?a1 ?a2 ?a3 ?a4 ?a5 ?a6 ?a7 ?a8] => generalize (EdgesFiles.extract_run a1 a2 a3 a4 a5 a6 a7 a8) end.
  intros [d' [r|err]]; reflexivity.
Qed.
Print Assumptions C78_contact_collect.
(** 'strata contact-line sample'. *)
Definition contact_sample_options : list (string * nat) := edge_options ++ area_options ++ [("-dt", 1); ("--delta_t", 1); ("--process", 1)]%nat ++ cutoff_options ++ [("--save", 1%nat)] ++ range_options ++ help_options.
Theorem C78_contact_sample w dashed d argv occs base labels av rolling rec floor area height dt process cutoff radius bins save b e x :
  writes (takes contact_sample_options) argv occs (base :: labels) -> not_given occs help -> labels <> [] ->
  chosen occs ["-av"; "--average"] (int_from 1) 1%Z av -> switched occs ["--rolling"] ["--norolling"] false rolling -> switched occs ["--recenter"] ["--norecenter"] true rec ->
  chosen occs ["--floor"] (some_of number_text) None floor -> chosen2 occs ["-ea"; "--extract_area"] number_text (ZQ 0, ZQ 0) area ->
  chosen occs ["-eh"; "--extract_height"] number_text (ZQ 0) height -> chosen occs ["-dt"; "--delta_t"] number_text (ZQ 1) dt -> chosen occs ["--process"] (one_of ["mean"; "sum"]) "mean" process ->
  chosen occs ["-co"; "--cutoff"] (some_of number_text) None cutoff ->
  chosen occs ["-cr"; "--cutoff_radius"] number_text (ZQ 1) radius -> chosen occs ["-cb"; "--cutoff_bins"] int_text 1%Z bins -> chosen occs ["--save"] (some_of as_is) None save ->
  chosen occs ["-b"; "--begin"] (int_from 0) 1%Z b -> chosen occs ["-e"; "--end"] (some_of (int_from 0)) None e -> chosen occs ["--ext"] as_is ".dat" x ->
  program w dashed d (group_word dashed :: "sample" :: argv) =
  ends (EdgesFiles.sample_run (w_ffuel w) (w_fuel w) (header_of w "strata.contact_line_analysis")
    (EdgesFiles.mkCltexts (w_repr w (VTuple (map VText labels))) (w_real w base) (w_repr w (match cutoff with Some c => VNum (Fin c) | None => VNone end))) labels
    {| EdgesFiles.eo_cutoff := cutoff; EdgesFiles.eo_radius := Some radius; EdgesFiles.eo_bins := bins; EdgesFiles.eo_floor := floor; EdgesFiles.eo_area := area; EdgesFiles.eo_height := height;
       EdgesFiles.eo_average := av; EdgesFiles.eo_rolling := rolling; EdgesFiles.eo_recenter := rec; EdgesFiles.eo_quiet := false |} dt d base (match save with Some s => s | None => "" end) (files_from b e x)).
Proof.
  intros Hw Hh Hne Hav Hro Hre Hfl Har Hht Hdt Hp Hco Hcr Hcb Hsv Hb He Hext.
  assert (parse d contact_line_sample_cmd argv = Parsed [VText base; VTuple (map VText labels)]
    (combine (map o_key (c_opts contact_line_sample_cmd))
       [VInt av; VBool rolling; VBool rec; vopt vnum floor; VTuple [vnum (fst area); vnum (snd area)]; vnum height; vnum dt; VText process; vopt vnum cutoff; vnum radius; VInt bins; vopt VText save; VInt b; vopt VInt e; VText x])) as HP.
  { apply (parse_ok d contact_line_sample_cmd contact_sample_options argv occs (base :: labels)); [reflexivity|reflexivity|exact Hw|exact Hh| |].
    - cbn [c_args contact_line_sample_cmd arg_values a_many text_arg a_kind a_required]. rewrite texts_values. destruct labels; [congruence|reflexivity].
    - repeat constructor.
      + exact (v_range d occs _ _ "average" _ _ Hav).
      + exact (value_flag d occs _ _ "rolling" _ _ Hro).
      + exact (value_flag d occs _ _ "recenter" _ _ Hre).
      + exact (v_some_num d occs _ "floor" _ _ Hfl).
      + exact (value_two d occs _ "extract_area" KFloat number_text vnum _ _ (cv_num d) Har).
      + exact (v_num d occs _ "extract_height" _ _ Hht).
      + exact (v_num d occs _ "dt" _ _ Hdt).
      + exact (v_choice d occs _ _ "process" _ _ Hp).
      + exact (v_some_num d occs _ "cutoff" _ _ Hco).
      + exact (v_num d occs _ "cutoff_radius" _ _ Hcr).
      + exact (v_int d occs _ "cutoff_bins" _ _ Hcb).
      + exact (v_some_text d occs _ "save" _ _ Hsv).
      + exact (v_range d occs _ _ "begin" _ _ Hb).
      + exact (v_some_range d occs _ _ "end" _ _ He).
      + exact (v_text d occs _ "ext" _ _ Hext). }
  set (kw := combine _ _) in HP.
  assert (exists kw', strata dashed d (group_word dashed :: "sample" :: argv) = ACall "sample_contact_line_edges" [VText base; VTuple (map VText labels)] kw' Ignore /\
     w_repr w (get "cutoff" kw') = w_repr w (match cutoff with Some c => VNum (Fin c) | None => VNone end) /\
     contact_sample_args [VText base; VTuple (map VText labels)] kw' =
       Ok (base, labels, EdgesFiles.mkEdgeOpts cutoff (Some radius) bins floor area height av rolling rec false, dt, match save with Some s => s | None => "" end, files_from b e x)) as (kw' & E1 & E2 & E3).
  { assert (strata dashed d (group_word dashed :: "sample" :: argv) = Cli.run d contact_line_sample_cmd (sum_body "sample_contact_line_edges") argv) as -> by (destruct dashed; reflexivity). unfold Cli.run. rewrite HP.
    assert (In process ["mean"; "sum"]) as Hin by (destruct Hp as [(f & v & _ & Hv & ->) | (_ & ->)]; [exact Hv|cbn; auto]).
    subst kw. clear -Hin. cbn [In] in Hin. destruct Hin as [<- | [<- | []]]; destruct e as [e|], floor as [floor|], cutoff as [cutoff|], save as [save|], area as [a1 a2];
    (eexists; split; [reflexivity|split; [reflexivity|unfold contact_sample_args; cbn [as_text rbind]; rewrite texts_of; reflexivity]]). }
  unfold program. rewrite E1. unfold library_all. change (library w d "sample_contact_line_edges" [VText base; VTuple (map VText labels)] kw') with (@None (Utils.disk * res returned)).
  change (String.eqb "sample_contact_line_edges" "sample_average_files") with false. change (String.eqb "sample_contact_line_edges" "sample_interfaces") with false.
  change (String.eqb "sample_contact_line_edges" "interface_contact_angle") with false. change (String.eqb "sample_contact_line_edges" "view_interfaces") with false.
  change (String.eqb "sample_contact_line_edges" "extract_contact_line_bins") with false. change (String.eqb "sample_contact_line_edges" "sample_contact_line_edges") with true. cbv iota.
  rewrite E3. cbn [call nth]. rewrite E2. unfold ends. change (env_in w "strata.contact_line_analysis") with (header_of w "strata.contact_line_analysis").
  match goal with |- context [EdgesFiles.sample_run ?a1 ?a2 ?a3 ?a4 ?a5 ?a6 ?a7 ?a8 ?a9 ?a10 ?a11] => generalize (EdgesFiles.sample_run a1 a2 a3 a4 a5 a6 a7 a8 a9 a10 a11) end.
  intros [d' [r|err]]; reflexivity.
Qed.
Print Assumptions C78_contact_sample.
(** A concrete command line: with two usable maps the run fails, the old output is moved (C88_never_written_refuted). *)
Example C78_ex_contact_collect : outcome_of (program ex_world true EdgesRunProps.ex_disk ["contact-line"; "collect"; "-av=2"; "-co"; "1"; "--norecenter"; "a"; "out"]) =
    Some (["#out00001.dat.1#"; "a00001.dat"; "a00002.dat"], [], Some TypeErr) /\
  outcome_of (program ex_world false EdgesRunProps.ex_disk ["contact_line"; "sample"; "-av=2"; "-co"; "1"; "-ea"; "1"; "1"; "--save"; "s.xvg"; "a"; "M"]) =
    Some (["s.xvg"; "a00001.dat"; "a00002.dat"; "out00001.dat"], [], Some SysExit) /\
  outcome_of (program ex_world true EdgesRunProps.ex_disk ["contact-line"; "collect"; "-av=3"; "-co"; "1"; "a"; "out"]) =
    Some (["a00001.dat"; "a00002.dat"; "out00001.dat"], [], None).
Proof. split; [|split]; vm_compute; reflexivity. Qed.
