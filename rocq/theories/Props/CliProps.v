(** C77-C79: the command line program. *)
From Coq Require Import String Ascii.
From Verif.Base Require Import QcX Res Np Bytes.
From Verif.Model Require Import Text PyText Click Cli.
From Verif.Spec Require Import CliSpec.
From Verif.Proofs Require Import TextP PyTextP ClickP CliP.
From Verif.Model Require Utils Formats Average SpreadingFiles InterfaceFiles Collect SpreadingView.
Local Open Scope string_scope.
Local Open Scope list_scope.
Local Notation length := List.length.

(** The options in the manual of 'strata average', with the numbers of their values. *)
Definition range_options : list (string * nat) := [("-b", 1); ("--begin", 1); ("-e", 1); ("--end", 1); ("--ext", 1)]%nat.
Definition cutoff_options : list (string * nat) := [("-co", 1); ("--cutoff", 1); ("-cr", 1); ("--cutoff_radius", 1); ("-cb", 1); ("--cutoff_bins", 1)]%nat.
Definition help_options : list (string * nat) := [("-h", 0); ("--help", 0)]%nat.
Definition lim_options : list (string * nat) := [("--xlim", 2); ("--ylim", 2)]%nat.
Definition label_options : list (string * nat) := [("--title", 1); ("--xlabel", 1); ("--ylabel", 1)]%nat.
Definition average_options : list (string * nat) :=
  [("--combine", 2); ("--supersample", 1); ("--recenter", 1); ("--rolling", 0); ("--norolling", 0); ("--floor", 1)]%nat
  ++ cutoff_options ++ lim_options ++ range_options ++ help_options.

(** Keyword arguments of a command, computed. *)
Ltac kw_compute f cmd :=
  unfold f; cbn [set_none_to_inf get set del is_text combine map o_key c_opts cmd app cutoff_opts lim_opts range_opts label_opts one two flag truthy String.eqb Ascii.eqb Bool.eqb vopt].

Theorem C78_average w dashed d argv occs base output g n rec rolling comb c sup s floor cutoff bins radius xlim ylim b e x :
  writes (takes average_options) argv occs [base; output; g] -> not_given occs help -> int_from 1 g n ->
  chosen occs ["--recenter"] (one_of ["none"; "left"; "right"; "com"]) "none" rec -> switched occs ["--rolling"] ["--norolling"] false rolling ->
  chosen2 occs ["--combine"] int_or_none (None, None) comb -> comb = match c with Some (cx, cy) => (Some (Z.of_nat cx), Some (Z.of_nat cy)) | None => (None, None) end ->
  chosen occs ["--supersample"] int_or_none None sup -> sup = option_map Z.of_nat s ->
  chosen occs ["--floor"] (some_of number_text) None floor -> chosen occs ["-co"; "--cutoff"] number_text (ZQ 0) cutoff ->
  chosen occs ["-cb"; "--cutoff_bins"] int_text 1%Z bins -> chosen occs ["-cr"; "--cutoff_radius"] number_text (ZQ 1) radius ->
  chosen2 occs ["--xlim"] number_or_none (None, None) xlim -> chosen2 occs ["--ylim"] number_or_none (None, None) ylim ->
  chosen occs ["-b"; "--begin"] (int_from 0) 1%Z b -> chosen occs ["-e"; "--end"] (some_of (int_from 0)) None e -> chosen occs ["--ext"] as_is ".dat" x ->
  let r := Average.average (w_ffuel w) (w_fuel w)
    {| Average.a_xlim := xlim; Average.a_ylim := ylim; Average.a_combine := c; Average.a_recenter := if String.eqb rec "none" then "" else rec; Average.a_super := s;
       Average.a_floor := floor; Average.a_cutoff := Some cutoff; Average.a_bins := bins; Average.a_radius := radius; Average.a_longest := false |}
    false d base output n rolling
    {| Utils.o_begin := Some b; Utils.o_end := Some (match e with Some z => Utils.Upto z | None => Utils.Inf end); Utils.o_ext := Some x; Utils.o_outext := None |} in
  main w dashed d ("average" :: argv) = Some (Done (fst r) [] (snd r)).
Proof.
  intros Hw Hh Hg Hrec Hroll Hcomb Ec Hsup Es Hfloor Hcut Hbins Hrad Hx Hy Hb He Hext r.
  assert (parse d average_cmd argv = Parsed [VText base; VText output; VInt n]
    (combine (map o_key (c_opts average_cmd))
       [VTuple [vopt VInt (fst comb); vopt VInt (snd comb)]; vopt VInt sup; VText rec; VBool rolling; vopt vnum floor; vnum cutoff; vnum radius; VInt bins;
        VTuple [vopt vnum (fst xlim); vopt vnum (snd xlim)]; VTuple [vopt vnum (fst ylim); vopt vnum (snd ylim)]; VInt b; vopt VInt e; VText x])) as Hp.
  { apply (parse_ok d average_cmd average_options argv occs [base; output; g]); [reflexivity|reflexivity|exact Hw|exact Hh| |].
    - cbn [c_args average_cmd arg_values a_many text_arg a_kind]. rewrite (convert_range d 1 g n Hg). reflexivity.
    - repeat constructor.
      + exact (v_opt_ints d occs _ "combine" _ _ Hcomb).
      + exact (v_opt_int d occs _ "supersample" _ _ Hsup).
      + exact (v_choice d occs _ _ "recenter" _ _ Hrec).
      + exact (value_flag d occs _ _ "rolling" _ _ Hroll).
      + exact (v_some_num d occs _ "floor" _ _ Hfloor).
      + exact (v_num d occs _ "cutoff" _ _ Hcut).
      + exact (v_num d occs _ "cutoff_radius" _ _ Hrad).
      + exact (v_int d occs _ "cutoff_bins" _ _ Hbins).
      + exact (v_opt_nums d occs _ "xlim" _ _ Hx).
      + exact (v_opt_nums d occs _ "ylim" _ _ Hy).
      + exact (v_range d occs _ _ "begin" _ _ Hb).
      + exact (v_some_range d occs _ _ "end" _ _ He).
      + exact (v_text d occs _ "ext" _ _ Hext). }
  set (kw := combine _ _) in Hp.
  assert (exists kw', strata dashed d ("average" :: argv) = ACall "average" [VText base; VText output; VInt n] kw' Ignore /\
     average_args [VText base; VText output; VInt n] kw' =
     Ok (base, output, n, rolling, Average.mkAopts xlim ylim c (if String.eqb rec "none" then "" else rec) s floor (Some cutoff) bins radius false,
         {| Utils.o_begin := Some b; Utils.o_end := Some (bound_of e); Utils.o_ext := Some x; Utils.o_outext := None |})) as (kw' & E1 & E2).
  { eexists. split.
    - change (strata dashed d ("average" :: argv)) with (Cli.run d average_cmd average_body argv). unfold Cli.run. rewrite Hp. reflexivity.
    - subst kw sup. destruct e as [e|]; (destruct (String.eqb_spec rec "none") as [-> | Nr]).
      all: kw_compute average_args average_cmd.
      all: try rewrite (proj2 (String.eqb_neq _ _) Nr); kw_compute average_args average_cmd.
      all: rewrite !as_lim_nums, (as_combine_nats c comb Ec), as_opt_nat, as_opt_num; reflexivity. }
  unfold main. rewrite E1.
  unfold library. change (String.eqb "average" "average") with true. cbv iota. rewrite E2. unfold bound_of. cbn [call option_map fst snd plain]. subst r.
  match goal with |- context [Average.average ?a1 ?a2 ?a3 ?a4 ?a5 ?a6 ?a7 ?a8 ?a9 ?a10] => destruct (Average.average a1 a2 a3 a4 a5 a6 a7 a8 a9 a10) as [d' [err|]] end; reflexivity.
Qed.
Print Assumptions C78_average.

(** 'strata convert'. *)
Definition convert_options : list (string * nat) := [("--ftype", 1%nat)] ++ range_options ++ help_options.
Theorem C78_convert w dashed d argv occs base output t b e x :
  writes (takes convert_options) argv occs [base; output] -> not_given occs help -> chosen occs ["--ftype"] (one_of ["gmx"; "simple"; "simple_plain"]) "gmx" t ->
  chosen occs ["-b"; "--begin"] (int_from 0) 1%Z b -> chosen occs ["-e"; "--end"] (some_of (int_from 0)) None e -> chosen occs ["--ext"] as_is ".dat" x ->
  let r := Formats.convert_run (w_ffuel w) (w_fuel w) (Some t) d base output
    {| Utils.o_begin := Some b; Utils.o_end := Some (match e with Some z => Utils.Upto z | None => Utils.Inf end); Utils.o_ext := Some x; Utils.o_outext := None |} in
  main w dashed d ("convert" :: argv) = Some (Done (fst r) [] (snd r)).
Proof.
  intros Hw Hh Ht Hb He Hext r.
  assert (parse d convert_cmd argv = Parsed [VText base; VText output] (combine (map o_key (c_opts convert_cmd)) [VText t; VInt b; vopt VInt e; VText x])) as Hp.
  { apply (parse_ok d convert_cmd convert_options argv occs [base; output]); [reflexivity|reflexivity|exact Hw|exact Hh|reflexivity|]. repeat constructor.
    - exact (v_choice d occs _ _ "ftype" _ _ Ht).
    - exact (v_range d occs _ _ "begin" _ _ Hb).
    - exact (v_some_range d occs _ _ "end" _ _ He).
    - exact (v_text d occs _ "ext" _ _ Hext). }
  set (kw := combine _ _) in Hp.
  assert (exists kw', strata dashed d ("convert" :: argv) = ACall "convert" [VText base; VText output] kw' Ignore /\
     convert_args [VText base; VText output] kw' =
     Ok (base, output, t, {| Utils.o_begin := Some b; Utils.o_end := Some (bound_of e); Utils.o_ext := Some x; Utils.o_outext := None |})) as (kw' & E1 & E2).
  { eexists. split.
    - change (strata dashed d ("convert" :: argv)) with (Cli.run d convert_cmd convert_body argv). unfold Cli.run. rewrite Hp. reflexivity.
    - subst kw. destruct e as [e|]; reflexivity. }
  unfold main. rewrite E1. unfold library. change (String.eqb "convert" "average") with false. change (String.eqb "convert" "convert") with true. cbv iota. rewrite E2.
  unfold bound_of. cbn [call option_map fst snd plain]. subst r.
  match goal with |- context [Formats.convert_run ?a1 ?a2 ?a3 ?a4 ?a5 ?a6 ?a7] => destruct (Formats.convert_run a1 a2 a3 a4 a5 a6 a7) as [d' [err|]] end; reflexivity.
Qed.
Print Assumptions C78_convert.

(** 'strata spreading collect'. *)
Definition spreading_collect_options : list (string * nat) :=
  [("-o", 1); ("--output", 1); ("--nooutput", 0); ("-dt", 1); ("--delta_t", 1)]%nat ++ cutoff_options ++ [("-t0", 1); ("--time_init", 1)]%nat ++ range_options
  ++ [("-v", 0); ("--verbose", 0)]%nat ++ help_options.
Theorem C78_spreading_collect w dashed d argv occs base fl floor save no verbose dt t0 cutoff bins radius b e x :
  writes (takes spreading_collect_options) argv occs [base; fl] -> not_given occs help -> number_text fl floor ->
  chosen occs ["-o"; "--output"] as_is "spread.xvg" save -> switched occs ["--nooutput"] [] false no -> switched occs ["-v"; "--verbose"] [] false verbose ->
  chosen occs ["-dt"; "--delta_t"] number_text (ZQ 1) dt -> chosen occs ["-t0"; "--time_init"] number_text (ZQ 0) t0 ->
  chosen occs ["-co"; "--cutoff"] (some_of number_text) None cutoff ->
  chosen occs ["-cb"; "--cutoff_bins"] int_text 1%Z bins -> chosen occs ["-cr"; "--cutoff_radius"] number_text (ZQ 1) radius ->
  chosen occs ["-b"; "--begin"] (int_from 0) 1%Z b -> chosen occs ["-e"; "--end"] (some_of (int_from 0)) None e -> chosen occs ["--ext"] as_is ".dat" x ->
  let header := SpreadingFiles.spreading_header (SpreadingFiles.mkSinfo (InterfaceFiles.e_date (w_env w)) (InterfaceFiles.e_version (w_env w)) (w_real w base)
    (w_repr w (VInt b)) (w_repr w (match e with Some z => VInt z | None => VNum PInf end)) (w_repr w (VNum (Fin floor))) (w_repr w (VNum (Fin dt)))
    (w_repr w (match cutoff with Some c => VNum (Fin c) | None => VNone end)) (w_repr w (VNum (Fin (ZQ 1)))) (w_repr w (VInt bins))) in
  let '(d', _, rows) := SpreadingFiles.spreading_run (w_ffuel w) (w_fuel w) header
    {| SpreadingFiles.so_cutoff := cutoff; SpreadingFiles.so_radius := radius; SpreadingFiles.so_bins := bins; SpreadingFiles.so_floor := Some floor |}
    dt t0 d false base (if no then None else Some save)
    {| Utils.o_begin := Some b; Utils.o_end := Some (match e with Some z => Utils.Upto z | None => Utils.Inf end); Utils.o_ext := Some x; Utils.o_outext := None |} in
  main w dashed d ("spreading" :: "collect" :: argv) =
  Some (match rows with Ok l => Done d' (if verbose then print_rows l else []) None | Err err => Done d' [] (Some err) end).
Proof.
  intros Hw Hh Hf Hsave Hno Hv Hdt Ht0 Hcut Hbins Hrad Hb He Hext header.
  assert (parse d spreading_collect_cmd argv = Parsed [VText base; vnum floor]
    (combine (map o_key (c_opts spreading_collect_cmd))
       [VText save; VBool no; vnum dt; vopt vnum cutoff; vnum radius; VInt bins; vnum t0; VInt b; vopt VInt e; VText x; VBool verbose])) as Hp.
  { apply (parse_ok d spreading_collect_cmd spreading_collect_options argv occs [base; fl]); [reflexivity|reflexivity|exact Hw|exact Hh| |].
    - cbn [c_args spreading_collect_cmd arg_values a_many text_arg a_kind]. rewrite (cv_num d fl floor Hf). reflexivity.
    - repeat constructor.
      + exact (v_text d occs _ "save" _ _ Hsave).
      + exact (value_flag d occs _ _ "nooutput" _ _ Hno).
      + exact (v_num d occs _ "dt" _ _ Hdt).
      + exact (v_some_num d occs _ "cutoff" _ _ Hcut).
      + exact (v_num d occs _ "cutoff_radius" _ _ Hrad).
      + exact (v_int d occs _ "cutoff_bins" _ _ Hbins).
      + exact (v_num d occs _ "t0" _ _ Ht0).
      + exact (v_range d occs _ _ "begin" _ _ Hb).
      + exact (v_some_range d occs _ _ "end" _ _ He).
      + exact (v_text d occs _ "ext" _ _ Hext).
      + exact (value_flag d occs _ _ "verbose" _ _ Hv). }
  set (kw := combine _ _) in Hp.
  assert (exists kw', strata dashed d ("spreading" :: "collect" :: argv) = ACall "collect" [VText base] kw' (if verbose then PrintRows else Ignore) /\
     SpreadingFiles.spreading_header (spreading_info w base kw') = header /\
     spreading_args [VText base] kw' =
     Ok (base, if no then None else Some save, SpreadingFiles.mkSopts cutoff radius bins (Some floor), dt, t0,
         {| Utils.o_begin := Some b; Utils.o_end := Some (bound_of e); Utils.o_ext := Some x; Utils.o_outext := None |})) as (kw' & E1 & E2 & E3).
  { destruct verbose, no, e as [e|], cutoff as [cutoff|]; (eexists; split;
      [change (strata dashed d ("spreading" :: "collect" :: argv)) with (Cli.run d spreading_collect_cmd spreading_collect_body argv); unfold Cli.run; rewrite Hp; reflexivity|
       split; [reflexivity|reflexivity]]). }
  unfold main. rewrite E1. unfold library.
  change (String.eqb "collect" "average") with false. change (String.eqb "collect" "convert") with false. change (String.eqb "collect" "collect") with true. cbv iota.
  rewrite E3. cbn [call]. rewrite E2. unfold bound_of.
  destruct (SpreadingFiles.spreading_run _ _ _ _ _ _ _ _ _ _ _) as [[d' i'] [rows|err]]; [destruct verbose|]; reflexivity.
Qed.
Print Assumptions C78_spreading_collect.

(** 'strata spreading view'. *)
Definition spreading_view_options : list (string * nat) :=
  [("-t", 1); ("--tau", 1); ("-r", 1); ("--radius", 1); ("-rs", 1); ("--sync_radius", 1); ("-o", 1); ("--save_fig", 1); ("-x", 1); ("--save_xvg", 1);
   ("--show", 0); ("--noshow", 0); ("--loglog", 0)]%nat ++ lim_options ++ label_options ++ help_options.
Theorem C78_spreading_view w dashed d argv occs files tau R sync fig save show loglog xlim ylim title xlabel ylabel :
  writes (takes spreading_view_options) argv occs files -> not_given occs help ->
  (forall f, In f files -> Utils.exists_path d (Formats.os_path f) = true) ->
  chosen occs ["-t"; "--tau"] number_text (ZQ 1) tau -> chosen occs ["-r"; "--radius"] number_text (ZQ 1) R ->
  chosen occs ["-rs"; "--sync_radius"] (some_of number_text) None sync -> chosen occs ["-x"; "--save_xvg"] (some_of as_is) None save ->
  chosen occs ["-o"; "--save_fig"] (some_of as_is) None fig -> switched occs ["--show"] ["--noshow"] true show -> switched occs ["--loglog"] [] false loglog ->
  chosen2 occs ["--xlim"] number_or_none (None, None) xlim -> chosen2 occs ["--ylim"] number_or_none (None, None) ylim ->
  chosen occs ["--title"] as_is "Droplet spreading" title -> chosen occs ["--xlabel"] as_is "Time (ps)" xlabel -> chosen occs ["--ylabel"] as_is "Radius (nm)" ylabel ->
  main w dashed d ("spreading" :: "view" :: argv) =
  Some (match SpreadingFiles.view_spreading d files sync [tau] [R] (Some save) (w_env w) (w_show w) with
        | Ok (d', _) => Done d' [] None
        | Err err => Done d [] (Some err)
        end).
Proof.
  intros Hw Hh Hex Ht HR Hs Hsave Hfig Hshow Hlog Hx Hy Hti Hxl Hyl.
  assert (parse d spreading_view_cmd argv = Parsed [VTuple (map VText files)]
    (combine (map o_key (c_opts spreading_view_cmd))
       [vnum tau; vnum R; vopt vnum sync; vopt VText fig; vopt VText save; VBool show; VBool loglog;
        VTuple [vopt vnum (fst xlim); vopt vnum (snd xlim)]; VTuple [vopt vnum (fst ylim); vopt vnum (snd ylim)]; VText title; VText xlabel; VText ylabel])) as Hp.
  { apply (parse_ok d spreading_view_cmd spreading_view_options argv occs files); [reflexivity|reflexivity|exact Hw|exact Hh| |].
    - apply existing_files. exact Hex.
    - repeat constructor.
      + exact (v_num d occs _ "tau" _ _ Ht).
      + exact (v_num d occs _ "R" _ _ HR).
      + exact (v_some_num d occs _ "sync_radius" _ _ Hs).
      + exact (v_some_text d occs _ "save_fig" _ _ Hfig).
      + exact (v_some_text d occs _ "save_xvg" _ _ Hsave).
      + exact (value_flag d occs _ _ "show" _ _ Hshow).
      + exact (value_flag d occs _ _ "loglog" _ _ Hlog).
      + exact (v_opt_nums d occs _ "xlim" _ _ Hx).
      + exact (v_opt_nums d occs _ "ylim" _ _ Hy).
      + exact (v_text d occs _ "title" _ _ Hti).
      + exact (v_text d occs _ "xlabel" _ _ Hxl).
      + exact (v_text d occs _ "ylabel" _ _ Hyl). }
  set (kw := combine _ _) in Hp.
  assert (strata dashed d ("spreading" :: "view" :: argv) = ACall "view_spreading" [VTuple (map VText files)] kw Ignore) as E1.
  { change (strata dashed d ("spreading" :: "view" :: argv)) with (Cli.run d spreading_view_cmd spreading_view_body argv). unfold Cli.run. rewrite Hp. reflexivity. }
  assert (view_args [VTuple (map VText files)] kw = Ok (files, sync, tau, R, save)) as E2.
  { unfold view_args. rewrite texts_of. subst kw. destruct sync as [sync|], save as [save|]; reflexivity. }
  unfold main. rewrite E1. unfold library.
  change (String.eqb "view_spreading" "average") with false. change (String.eqb "view_spreading" "convert") with false. change (String.eqb "view_spreading" "collect") with false.
  change (String.eqb "view_spreading" "view_spreading") with true. cbv iota.
  rewrite E2. cbn [call].
  destruct (SpreadingFiles.view_spreading _ _ _ _ _ _ _ _) as [[d' w']|err]; reflexivity.
Qed.
Print Assumptions C78_spreading_view.

(** 'strata interface collect': everything is written, then the program ends with a TypeError (C79). *)
Definition interface_collect_options : list (string * nat) := [("--recenter", 1%nat)] ++ cutoff_options ++ [("--ylim", 2%nat)] ++ range_options ++ help_options.
Theorem C78_interface_collect w dashed d argv occs base output rec cutoff bins radius ylim b e x :
  writes (takes interface_collect_options) argv occs [base; output] -> not_given occs help -> chosen occs ["--recenter"] (one_of ["off"; "com"; "zero"]) "zero" rec ->
  chosen occs ["-co"; "--cutoff"] (some_of number_text) None cutoff ->
  chosen occs ["-cb"; "--cutoff_bins"] int_text 1%Z bins -> chosen occs ["-cr"; "--cutoff_radius"] number_text (ZQ 1) radius ->
  chosen2 occs ["--ylim"] number_or_none (None, None) ylim ->
  chosen occs ["-b"; "--begin"] (int_from 0) 1%Z b -> chosen occs ["-e"; "--end"] (some_of (int_from 0)) None e -> chosen occs ["--ext"] as_is ".dat" x ->
  let header out := InterfaceFiles.interface_header (w_env w) [txt out]
    (Some (w_repr w (if String.eqb rec "off" then VNone else VText rec), w_repr w (match cutoff with Some c => VNum (Fin c) | None => VNone end),
           w_repr w (VNum (Fin radius)), w_repr w (VInt bins))) in
  let r := InterfaceFiles.collect_files (w_ffuel w) (w_fuel w) header cutoff (Some radius) bins ylim
    (if String.eqb rec "zero" then Collect.Zero else if String.eqb rec "com" then Collect.Com else Collect.OtherOption) d base output
    {| Utils.o_begin := Some b; Utils.o_end := Some (match e with Some z => Utils.Upto z | None => Utils.Inf end); Utils.o_ext := Some x; Utils.o_outext := None |} in
  main w dashed d ("interface" :: "collect" :: argv) = Some (Done (fst r) [] (Some (match snd r with None => TypeErr | Some err => err end))).
Proof.
  intros Hw Hh Hrec Hcut Hbins Hrad Hy Hb He Hext header r.
  assert (parse d interface_collect_cmd argv = Parsed [VText base; VText output]
    (combine (map o_key (c_opts interface_collect_cmd))
       [VText rec; vopt vnum cutoff; vnum radius; VInt bins; VTuple [vopt vnum (fst ylim); vopt vnum (snd ylim)]; VInt b; vopt VInt e; VText x])) as Hp.
  { apply (parse_ok d interface_collect_cmd interface_collect_options argv occs [base; output]); [reflexivity|reflexivity|exact Hw|exact Hh|reflexivity|].
    repeat constructor.
    - exact (v_choice d occs _ _ "recenter" _ _ Hrec).
    - exact (v_some_num d occs _ "cutoff" _ _ Hcut).
    - exact (v_num d occs _ "cutoff_radius" _ _ Hrad).
    - exact (v_int d occs _ "cutoff_bins" _ _ Hbins).
    - exact (v_opt_nums d occs _ "ylims" _ _ Hy).
    - exact (v_range d occs _ _ "begin" _ _ Hb).
    - exact (v_some_range d occs _ _ "end" _ _ He).
    - exact (v_text d occs _ "ext" _ _ Hext). }
  set (kw := combine _ _) in Hp.
  assert (exists kw', strata dashed d ("interface" :: "collect" :: argv) = ACall "collect_interfaces" [VText base; VText output] kw' UnpackTwo /\
     interface_head w kw' = header /\
     collect_args [VText base; VText output] kw' =
     Ok (base, output, cutoff, radius, bins, ylim, if String.eqb rec "zero" then Collect.Zero else if String.eqb rec "com" then Collect.Com else Collect.OtherOption,
         {| Utils.o_begin := Some b; Utils.o_end := Some (bound_of e); Utils.o_ext := Some x; Utils.o_outext := None |})) as (kw' & E1 & E2 & E3).
  { assert (In rec ["off"; "com"; "zero"]) as Hin.
    { destruct Hrec as [(f & v & _ & Hv & ->) | (_ & ->)]; [exact Hv|cbn; auto]. }
    subst kw header. cbn in Hin. destruct Hin as [<- | [<- | [<- | []]]]; destruct e as [e|], cutoff as [cutoff|], ylim as [[y1|] [y2|]];
    (eexists; split;
      [change (strata dashed d ("interface" :: "collect" :: argv)) with (Cli.run d interface_collect_cmd interface_collect_body argv); unfold Cli.run; rewrite Hp; reflexivity|
       split; [reflexivity|reflexivity]]). }
  unfold main. rewrite E1. unfold library.
  change (String.eqb "collect_interfaces" "average") with false. change (String.eqb "collect_interfaces" "convert") with false. change (String.eqb "collect_interfaces" "collect") with false.
  change (String.eqb "collect_interfaces" "view_spreading") with false. change (String.eqb "collect_interfaces" "collect_interfaces") with true. cbv iota.
  rewrite E3. cbn [call]. rewrite E2. unfold bound_of. cbn [option_map fst snd plain]. subst r.
  match goal with |- context [InterfaceFiles.collect_files ?a1 ?a2 ?a3 ?a4 ?a5 ?a6 ?a7 ?a8 ?a9 ?a10 ?a11 ?a12] =>
    destruct (InterfaceFiles.collect_files a1 a2 a3 a4 a5 a6 a7 a8 a9 a10 a11 a12) as [d' [err|]] end; reflexivity.
Qed.
Print Assumptions C78_interface_collect.
