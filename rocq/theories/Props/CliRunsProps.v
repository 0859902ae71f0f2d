(** C78, C79: the commands which sample and view interfaces and maps, with their effects on files. *)
From Coq Require Import String Ascii Reals.
From Verif.Base Require Import QcX QcR Res Np Bytes.
From Verif.Model Require Import Text PyText Click Cli CliRuns.
From Verif.Spec Require Import CliSpec CliReads.
From Verif.Proofs Require Import TextP PyTextP ClickP CliP CliTextP.
From Verif.Props Require Import CliProps CliTextProps CliEndProps.
From Verif.Model Require Utils Formats InterfaceFiles SampleFiles InterfaceViewFiles.
From Verif.Props Require InterfaceFilesProps InterfaceViewRunProps.
Local Open Scope string_scope.
Local Open Scope list_scope.
Local Notation length := List.length.

(** The program does what is said by the theorems about [main] (C78_average and so on). *)
Theorem C78_program w dashed d argv o : main w dashed d argv = Some o -> program w dashed d argv = Some o.
Proof.
  unfold main, program. destruct (strata dashed d argv) as [| | |fn args kw after]; auto. unfold library_all. destruct (library w d fn args kw); [auto|discriminate].
Qed.
Print Assumptions C78_program.
(** What is in the headers besides the options: the module, date, version and directory. *)
Definition header_of (w : world) (module : string) : InterfaceFiles.env :=
  InterfaceFiles.mkEnv (txt module) (InterfaceFiles.e_date (w_env w)) (InterfaceFiles.e_version (w_env w)) (InterfaceFiles.e_cwd (w_env w)).
Definition files_from (b : Z) (e : option Z) (x : string) : Utils.fopts :=
  {| Utils.o_begin := Some b; Utils.o_end := Some (match e with Some z => Utils.Upto z | None => Utils.Inf end); Utils.o_ext := Some x; Utils.o_outext := None |}.
Definition ends {A} (r : Utils.disk * res A) : option outcome := Some (Done (fst r) [] (match snd r with Ok _ => None | Err e => Some e end)).

Lemma texts_values d labels : option_mapM (convert d KText) labels = Some (map VText labels).
Proof. induction labels as [|l ls IH]; [reflexivity|]. unfold option_mapM in *. cbn [fold_right map]. rewrite IH. reflexivity. Qed.
(** 'strata sample'. *)
Definition sample_options : list (string * nat) :=
  [("-o", 1); ("--output", 1); ("-dt", 1); ("--delta_t", 1); ("--process", 1); ("-co", 1); ("--cutoff", 1); ("-cl", 1); ("--cutoff_label", 1); ("-fl", 1); ("--floor", 1); ("--show", 0); ("--noshow", 0)]%nat
  ++ lim_options ++ range_options ++ help_options.
Theorem C78_sample w dashed d argv occs base labels out dt process cutoff clabel floor show xlim ylim b e x :
  writes (takes sample_options) argv occs (base :: labels) -> not_given occs help -> labels <> [] ->
  chosen occs ["-o"; "--output"] as_is "sample.xvg" out -> chosen occs ["-dt"; "--delta_t"] number_text (ZQ 1) dt -> chosen occs ["--process"] (one_of ["mean"; "sum"]) "mean" process ->
  chosen occs ["-co"; "--cutoff"] (some_of number_text) None cutoff -> chosen occs ["-cl"; "--cutoff_label"] (some_of as_is) None clabel ->
  chosen occs ["-fl"; "--floor"] number_text (ZQ 0) floor -> switched occs ["--show"] ["--noshow"] true show ->
  chosen2 occs ["--xlim"] number_or_none (None, None) xlim -> chosen2 occs ["--ylim"] number_or_none (None, None) ylim ->
  chosen occs ["-b"; "--begin"] (int_from 0) 1%Z b -> chosen occs ["-e"; "--end"] (some_of (int_from 0)) None e -> chosen occs ["--ext"] as_is ".dat" x ->
  program w dashed d ("sample" :: argv) =
  ends (SampleFiles.sample_average_run (w_ffuel w) (w_fuel w) (header_of w "strata.sample_average")
    (SampleFiles.mkAvtexts (w_repr w (VTuple (map VText labels))) (w_real w base) (w_repr w (match cutoff with Some c => VNum (Fin c) | None => VNone end)) (w_repr w (match clabel with Some l => VText l | None => VNone end)))
    labels {| SampleFiles.av_sum := String.eqb process "sum"; SampleFiles.av_dt := dt; SampleFiles.av_cutoff_label := clabel; SampleFiles.av_cutoff := cutoff;
              SampleFiles.av_viscosity := Q2Qc (877 # 1000000); SampleFiles.av_floor := floor; SampleFiles.av_xlim := xlim; SampleFiles.av_ylim := ylim |}
    d base out (files_from b e x)).
Proof.
  intros Hw Hh Hne Ho Hdt Hp Hco Hcl Hfl Hs Hx Hy Hb He Hext.
  assert (parse d sample_cmd argv = Parsed [VText base; VTuple (map VText labels)]
    (combine (map o_key (c_opts sample_cmd))
       [VText out; vnum dt; VText process; vopt vnum cutoff; vopt VText clabel; vnum floor; VBool show;
        VTuple [vopt vnum (fst xlim); vopt vnum (snd xlim)]; VTuple [vopt vnum (fst ylim); vopt vnum (snd ylim)]; VInt b; vopt VInt e; VText x])) as HP.
  { apply (parse_ok d sample_cmd sample_options argv occs (base :: labels)); [reflexivity|reflexivity|exact Hw|exact Hh| |].
    - cbn [c_args sample_cmd arg_values a_many text_arg a_kind a_required]. rewrite texts_values. destruct labels; [congruence|reflexivity].
    - repeat constructor.
      + exact (v_text d occs _ "output" _ _ Ho).
      + exact (v_num d occs _ "dt" _ _ Hdt).
      + exact (v_choice d occs _ _ "process" _ _ Hp).
      + exact (v_some_num d occs _ "cutoff" _ _ Hco).
      + exact (v_some_text d occs _ "cutoff_label" _ _ Hcl).
      + exact (v_num d occs _ "slip_floor" _ _ Hfl).
      + exact (value_flag d occs _ _ "verbose" _ _ Hs).
      + exact (v_opt_nums d occs _ "xlim" _ _ Hx).
      + exact (v_opt_nums d occs _ "ylim" _ _ Hy).
      + exact (v_range d occs _ _ "begin" _ _ Hb).
      + exact (v_some_range d occs _ _ "end" _ _ He).
      + exact (v_text d occs _ "ext" _ _ Hext). }
  set (kw := combine _ _) in HP.
  assert (exists kw', strata dashed d ("sample" :: argv) = ACall "sample_average_files" [VText base; VTuple (map VText labels)] kw' Ignore /\
     sample_texts w base [VText base; VTuple (map VText labels)] kw' = SampleFiles.mkAvtexts (w_repr w (VTuple (map VText labels))) (w_real w base) (w_repr w (match cutoff with Some c => VNum (Fin c) | None => VNone end)) (w_repr w (match clabel with Some l => VText l | None => VNone end)) /\
     sample_args [VText base; VTuple (map VText labels)] kw' =
     Ok (base, labels, SampleFiles.mkAv (String.eqb process "sum") dt clabel cutoff (Q2Qc (877 # 1000000)) floor xlim ylim, out, files_from b e x)) as (kw' & E1 & E2 & E3).
  { assert (In process ["mean"; "sum"]) as Hin by (destruct Hp as [(f & v & _ & Hv & ->) | (_ & ->)]; [exact Hv|cbn; auto]).
    subst kw. cbn [In] in Hin. destruct Hin as [<- | [<- | []]]; destruct e as [e|], cutoff as [cutoff|], clabel as [clabel|], xlim as [[x1|] [x2|]], ylim as [[y1|] [y2|]];
    (eexists; split;
      [change (strata dashed d ("sample" :: argv)) with (Cli.run d sample_cmd (sum_body "sample_average_files") argv); unfold Cli.run; rewrite HP; reflexivity|];
     split; [reflexivity|unfold sample_args; cbn [as_text rbind]; rewrite texts_of; reflexivity]). }
  unfold program. rewrite E1. unfold library_all. change (library w d "sample_average_files" [VText base; VTuple (map VText labels)] kw') with (@None (Utils.disk * res returned)).
  change (String.eqb "sample_average_files" "sample_average_files") with true. cbv iota. rewrite E3. cbn [call]. rewrite E2. unfold ends. change (env_in w "strata.sample_average") with (header_of w "strata.sample_average").
  match goal with |- context [SampleFiles.sample_average_run ?a1 ?a2 ?a3 ?a4 ?a5 ?a6 ?a7 ?a8 ?a9 ?a10] => generalize (SampleFiles.sample_average_run a1 a2 a3 a4 a5 a6 a7 a8 a9 a10) end.
  intros [d' [[r|]|err]]; reflexivity.
Qed.
Print Assumptions C78_sample.
(** 'strata interface sample'. *)
Definition interface_sample_options : list (string * nat) :=
  [("-o", 1); ("--save_fig", 1); ("-x", 1); ("--save_xvg", 1); ("-dt", 1); ("--delta_t", 1); ("--show", 0); ("--noshow", 0)]%nat
  ++ lim_options ++ label_options ++ range_options ++ [("--extfig", 1%nat)] ++ help_options.
Theorem C78_interface_sample w dashed d argv occs base variable fig save dt show xlim ylim title xlabel ylabel b e x extfig :
  writes (takes interface_sample_options) argv occs [base; variable] -> not_given occs help -> In variable ["area"; "length"] ->
  chosen occs ["-o"; "--save_fig"] (some_of as_is) None fig -> chosen occs ["-x"; "--save_xvg"] as_is "" save -> chosen occs ["-dt"; "--delta_t"] number_text (ZQ 1) dt ->
  switched occs ["--show"] ["--noshow"] true show -> chosen2 occs ["--xlim"] number_or_none (None, None) xlim -> chosen2 occs ["--ylim"] number_or_none (None, None) ylim ->
  chosen occs ["--title"] as_is "Droplet interface" title -> chosen occs ["--xlabel"] as_is "t (ps)" xlabel -> chosen occs ["--ylabel"] (some_of as_is) None ylabel ->
  chosen occs ["-b"; "--begin"] (int_from 0) 1%Z b -> chosen occs ["-e"; "--end"] (some_of (int_from 0)) None e -> chosen occs ["--ext"] as_is ".xvg" x ->
  chosen occs ["--extfig"] as_is ".png" extfig ->
  program w dashed d ("interface" :: "sample" :: argv) =
  ends (SampleFiles.sample_interfaces (w_ffuel w) (header_of w "strata.interface.sample") (w_real w base) variable dt d base save (files_from b e x)).
Proof.
  intros Hw Hh Hv Hf Hsv Hdt Hs Hx Hy Ht Hxl Hyl Hb He Hext Hef.
  assert (parse d interface_sample_cmd argv = Parsed [VText base; VText variable]
    (combine (map o_key (c_opts interface_sample_cmd))
       [vopt VText fig; VText save; vnum dt; VBool show; VTuple [vopt vnum (fst xlim); vopt vnum (snd xlim)]; VTuple [vopt vnum (fst ylim); vopt vnum (snd ylim)];
        VText title; VText xlabel; vopt VText ylabel; VInt b; vopt VInt e; VText x; VText extfig])) as HP.
  { apply (parse_ok d interface_sample_cmd interface_sample_options argv occs [base; variable]); [reflexivity|reflexivity|exact Hw|exact Hh| |].
    - cbn in Hv. destruct Hv as [<- | [<- | []]]; reflexivity.
    - repeat constructor.
      + exact (v_some_text d occs _ "save_fig" _ _ Hf).
      + exact (v_text d occs _ "save_xvg" _ _ Hsv).
      + exact (v_num d occs _ "delta_t" _ _ Hdt).
      + exact (value_flag d occs _ _ "show" _ _ Hs).
      + exact (v_opt_nums d occs _ "xlim" _ _ Hx).
      + exact (v_opt_nums d occs _ "ylim" _ _ Hy).
      + exact (v_text d occs _ "title" _ _ Ht).
      + exact (v_text d occs _ "xlabel" _ _ Hxl).
      + exact (v_some_text d occs _ "ylabel" _ _ Hyl).
      + exact (v_range d occs _ _ "begin" _ _ Hb).
      + exact (v_some_range d occs _ _ "end" _ _ He).
      + exact (v_text d occs _ "ext" _ _ Hext).
      + exact (v_text d occs _ "extfig" _ _ Hef). }
  set (kw := combine _ _) in HP.
  assert (exists kw', strata dashed d ("interface" :: "sample" :: argv) = ACall "sample_interfaces" [VText base; VText variable] kw' Ignore /\
     interface_sample_args [VText base; VText variable] kw' = Ok (base, variable, save, dt, files_from b e x)) as (kw' & E1 & E3).
  { subst kw. destruct e as [e|], ylabel as [[|y ys]|];
    (eexists; split;
      [change (strata dashed d ("interface" :: "sample" :: argv)) with (Cli.run d interface_sample_cmd interface_sample_body argv); unfold Cli.run; rewrite HP; reflexivity|reflexivity]). }
  unfold program. rewrite E1. unfold library_all. change (library w d "sample_interfaces" [VText base; VText variable] kw') with (@None (Utils.disk * res returned)).
  change (String.eqb "sample_interfaces" "sample_average_files") with false. change (String.eqb "sample_interfaces" "sample_interfaces") with true. cbv iota.
  rewrite E3. cbn [call]. unfold ends. change (env_in w "strata.interface.sample") with (header_of w "strata.interface.sample").
  match goal with |- context [SampleFiles.sample_interfaces ?a1 ?a2 ?a3 ?a4 ?a5 ?a6 ?a7 ?a8 ?a9] => generalize (SampleFiles.sample_interfaces a1 a2 a3 a4 a5 a6 a7 a8 a9) end.
  intros [d' [r|err]]; reflexivity.
Qed.
Print Assumptions C78_interface_sample.
(** 'strata interface view': the files which are written; [r] is the whole run, with the figures. *)
Definition interface_view_options : list (string * nat) :=
  [("-av", 1); ("--average", 1); ("-o", 1); ("--save_fig", 1); ("-x", 1); ("--save_xvg", 1); ("--show", 0); ("--noshow", 0)]%nat
  ++ lim_options ++ label_options ++ range_options ++ [("--extfig", 1%nat)] ++ help_options.
Theorem C78_interface_view w dashed d argv occs base av fig save show xlim ylim title xlabel ylabel b e x extfig :
  writes (takes interface_view_options) argv occs [base] -> not_given occs help -> chosen occs ["-av"; "--average"] (int_from 1) 1%Z av ->
  chosen occs ["-o"; "--save_fig"] (some_of as_is) None fig -> chosen occs ["-x"; "--save_xvg"] as_is "" save ->
  switched occs ["--show"] ["--noshow"] true show -> chosen2 occs ["--xlim"] number_or_none (None, None) xlim -> chosen2 occs ["--ylim"] number_or_none (None, None) ylim ->
  chosen occs ["--title"] as_is "Droplet interface" title -> chosen occs ["--xlabel"] as_is "x (nm)" xlabel -> chosen occs ["--ylabel"] as_is "y (nm)" ylabel ->
  chosen occs ["-b"; "--begin"] (int_from 0) 1%Z b -> chosen occs ["-e"; "--end"] (some_of (int_from 0)) None e -> chosen occs ["--ext"] as_is ".xvg" x ->
  chosen occs ["--extfig"] as_is ".png" extfig ->
  let r := InterfaceViewFiles.view_interfaces (w_ffuel w) d base av save fig extfig (files_from b e x) in
  program w dashed d ("interface" :: "view" :: argv) = ends (fst (fst r), snd r).
Proof.
  intros Hw Hh Hav Hf Hsv Hs Hx Hy Ht Hxl Hyl Hb He Hext Hef r.
  assert (parse d interface_view_cmd argv = Parsed [VText base]
    (combine (map o_key (c_opts interface_view_cmd))
       [VInt av; vopt VText fig; VText save; VBool show; VTuple [vopt vnum (fst xlim); vopt vnum (snd xlim)]; VTuple [vopt vnum (fst ylim); vopt vnum (snd ylim)];
        VText title; VText xlabel; VText ylabel; VInt b; vopt VInt e; VText x; VText extfig])) as HP.
  { apply (parse_ok d interface_view_cmd interface_view_options argv occs [base]); [reflexivity|reflexivity|exact Hw|exact Hh|reflexivity|].
    repeat constructor.
      + exact (v_range d occs _ _ "average" _ _ Hav).
      + exact (v_some_text d occs _ "save_fig" _ _ Hf).
      + exact (v_text d occs _ "save_xvg" _ _ Hsv).
      + exact (value_flag d occs _ _ "show" _ _ Hs).
      + exact (v_opt_nums d occs _ "xlim" _ _ Hx).
      + exact (v_opt_nums d occs _ "ylim" _ _ Hy).
      + exact (v_text d occs _ "title" _ _ Ht).
      + exact (v_text d occs _ "xlabel" _ _ Hxl).
      + exact (v_text d occs _ "ylabel" _ _ Hyl).
      + exact (v_range d occs _ _ "begin" _ _ Hb).
      + exact (v_some_range d occs _ _ "end" _ _ He).
      + exact (v_text d occs _ "ext" _ _ Hext).
      + exact (v_text d occs _ "extfig" _ _ Hef). }
  set (kw := combine _ _) in HP.
  assert (exists kw', strata dashed d ("interface" :: "view" :: argv) = ACall "view_interfaces" [VText base] kw' UnpackTwo /\
     interface_view_args [VText base] kw' = Ok (base, av, save, fig, extfig, files_from b e x)) as (kw' & E1 & E3).
  { subst kw. destruct e as [e|], fig as [fig|];
    (eexists; split;
      [change (strata dashed d ("interface" :: "view" :: argv)) with (Cli.run d interface_view_cmd interface_view_body argv); unfold Cli.run; rewrite HP; reflexivity|reflexivity]). }
  unfold program. rewrite E1. unfold library_all. change (library w d "view_interfaces" [VText base] kw') with (@None (Utils.disk * res returned)).
  change (String.eqb "view_interfaces" "sample_average_files") with false. change (String.eqb "view_interfaces" "sample_interfaces") with false.
  change (String.eqb "view_interfaces" "interface_contact_angle") with false. change (String.eqb "view_interfaces" "view_interfaces") with true. cbv iota.
  rewrite E3. cbn [call]. unfold ends. subst r.
  match goal with |- context [InterfaceViewFiles.view_interfaces ?a1 ?a2 ?a3 ?a4 ?a5 ?a6 ?a7 ?a8] => generalize (InterfaceViewFiles.view_interfaces a1 a2 a3 a4 a5 a6 a7 a8) end.
  intros [[d' g] [r|err]]; reflexivity.
Qed.
Print Assumptions C78_interface_view.
(** 'strata interface angle': '-h' is the height. *)
Definition angle_options : list (string * nat) :=
  [("--fit", 0); ("--nofit", 0); ("-h", 1); ("--height", 1); ("-dt", 1); ("--delta_t", 1); ("-o", 1); ("--save_fig", 1); ("-x", 1); ("--save_xvg", 1); ("--show", 0); ("--noshow", 0)]%nat
  ++ lim_options ++ label_options ++ range_options ++ [("--help", 0%nat)].
Lemma angle_takes f : takes angle_options f = takes (flatten interface_angle_cmd) f.
Proof.
  unfold takes.
  change (flatten interface_angle_cmd) with (removelast angle_options ++ [("-h", 0); ("--help", 0)]%nat).
  cbn [angle_options app find fst snd removelast lim_options label_options range_options].
  repeat match goal with |- context [String.eqb ?a ?b] => destruct (String.eqb a b); [reflexivity|] end. reflexivity.
Qed.
Theorem C78_interface_angle w dashed d argv occs base fit height dt fig save show xlim ylim title xlabel ylabel b e x :
  writes (takes angle_options) argv occs [base] -> not_given occs ["--help"] ->
  switched occs ["--fit"] ["--nofit"] false fit -> chosen occs ["-h"; "--height"] number_or_none None height -> chosen occs ["-dt"; "--delta_t"] number_text (ZQ 1) dt ->
  chosen occs ["-o"; "--save_fig"] (some_of as_is) None fig -> chosen occs ["-x"; "--save_xvg"] (some_of as_is) None save ->
  switched occs ["--show"] ["--noshow"] false show -> chosen2 occs ["--xlim"] number_or_none (None, None) xlim -> chosen2 occs ["--ylim"] number_or_none (None, None) ylim ->
  chosen occs ["--title"] as_is "Contact angles" title -> chosen occs ["--xlabel"] as_is "t (ps)" xlabel -> chosen occs ["--ylabel"] as_is "angle (deg.)" ylabel ->
  chosen occs ["-b"; "--begin"] (int_from 0) 1%Z b -> chosen occs ["-e"; "--end"] (some_of (int_from 0)) None e -> chosen occs ["--ext"] as_is ".xvg" x ->
  fit = true \/ (exists h, height = Some h /\ h <> 0%Qc) ->
  program w dashed d ("interface" :: "angle" :: argv) =
  ends (SampleFiles.angle_run (w_ffuel w) (header_of w "strata.interface.angle") (w_real w base) (w_repr w (match height with Some h => VNum (Fin h) | None => VNone end))
    d base fit height dt (match save with Some s => s | None => "" end) (files_from b e x)).
Proof.
  intros Hw Hh Hfit Hht Hdt Hf Hsv Hs Hx Hy Ht Hxl Hyl Hb He Hext Hdo.
  assert (parse d interface_angle_cmd argv = Parsed [VText base]
    (combine (map o_key (c_opts interface_angle_cmd))
       [VBool fit; vopt vnum height; vnum dt; vopt VText fig; vopt VText save; VBool show; VTuple [vopt vnum (fst xlim); vopt vnum (snd xlim)]; VTuple [vopt vnum (fst ylim); vopt vnum (snd ylim)];
        VText title; VText xlabel; VText ylabel; VInt b; vopt VInt e; VText x])) as HP.
  { apply (parse_ok_h d interface_angle_cmd (flatten interface_angle_cmd) argv occs [base]);
      [reflexivity|reflexivity|eexists; reflexivity|apply (writes_ext (takes angle_options)); [exact angle_takes|exact Hw]|exact Hh|reflexivity|].
    repeat constructor.
      + exact (value_flag d occs _ _ "fit" _ _ Hfit).
      + exact (v_opt_num d occs _ "height" _ _ Hht).
      + exact (v_num d occs _ "delta_t" _ _ Hdt).
      + exact (v_some_text d occs _ "save_fig" _ _ Hf).
      + exact (v_some_text d occs _ "save_xvg" _ _ Hsv).
      + exact (value_flag d occs _ _ "show" _ _ Hs).
      + exact (v_opt_nums d occs _ "xlim" _ _ Hx).
      + exact (v_opt_nums d occs _ "ylim" _ _ Hy).
      + exact (v_text d occs _ "title" _ _ Ht).
      + exact (v_text d occs _ "xlabel" _ _ Hxl).
      + exact (v_text d occs _ "ylabel" _ _ Hyl).
      + exact (v_range d occs _ _ "begin" _ _ Hb).
      + exact (v_some_range d occs _ _ "end" _ _ He).
      + exact (v_text d occs _ "ext" _ _ Hext). }
  set (kw := combine _ _) in HP.
  assert ((truthy (get "fit" kw) || truthy (get "height" kw))%bool = true) as Hgo.
  { change (get "fit" kw) with (VBool fit). change (get "height" kw) with (vopt vnum height). destruct Hdo as [-> | (h & -> & Hn)]; [reflexivity|].
    apply orb_true_iff. right. cbn [vopt truthy vnum]. apply negb_true_iff, qeq_false. exact Hn. }
  assert (exists kw', strata dashed d ("interface" :: "angle" :: argv) = ACall "interface_contact_angle" [VText base] kw' Ignore /\
     w_repr w (get "height" kw') = w_repr w (match height with Some h => VNum (Fin h) | None => VNone end) /\
     angle_args [VText base] kw' = Ok (base, fit, height, dt, match save with Some s => s | None => "" end, files_from b e x)) as (kw' & E1 & E2 & E3).
  { change (strata dashed d ("interface" :: "angle" :: argv)) with (Cli.run d interface_angle_cmd interface_angle_body argv). unfold Cli.run. rewrite HP. unfold interface_angle_body. rewrite Hgo.
    subst kw. clear. destruct e as [e|], height as [h|], save as [save|]; (eexists; split; [reflexivity|split; reflexivity]). }
  unfold program. rewrite E1. unfold library_all. change (library w d "interface_contact_angle" [VText base] kw') with (@None (Utils.disk * res returned)).
  change (String.eqb "interface_contact_angle" "sample_average_files") with false. change (String.eqb "interface_contact_angle" "sample_interfaces") with false.
  change (String.eqb "interface_contact_angle" "interface_contact_angle") with true. cbv iota.
  rewrite E3. cbn [call]. rewrite E2. unfold ends. change (env_in w "strata.interface.angle") with (header_of w "strata.interface.angle").
  match goal with |- context [SampleFiles.angle_run ?a1 ?a2 ?a3 ?a4 ?a5 ?a6 ?a7 ?a8 ?a9 ?a10 ?a11] => generalize (SampleFiles.angle_run a1 a2 a3 a4 a5 a6 a7 a8 a9 a10 a11) end.
  intros [d' [r|err]]; reflexivity.
Qed.
Print Assumptions C78_interface_angle.
(** An accepted command line calls the function of the command, and if the function does its work the program ends without an exception, with the files as
    the function left them.  Missing: 'interface collect', see C79_interface_collect_refuted. *)
Theorem C79_program_ends_partial w dashed d words c touched fn argv : In (words, c, touched, fn) (commands dashed) -> accepted d c argv ->
  strata dashed d (words ++ argv) = ANothing \/
  exists args kw after, strata dashed d (words ++ argv) = ACall fn args kw after /\
    forall d' r, library_all w d fn args kw = Some (d', Ok r) -> fn <> "collect_interfaces" -> exists printed, program w dashed d (words ++ argv) = Some (Done d' printed None).
Proof.
  intros H Hacc. destruct (C79_ends_without_error_partial w dashed d words c touched fn argv H Hacc) as [E | (args & kw & after & Es & Hlib)]; [left; exact E|right].
  exists args, kw, after. split; [exact Es|]. intros d' r El Hn. unfold program. rewrite Es, El. cbn [option_map fst snd].
  assert (after = UnpackTwo -> fn = "view_interfaces") as Ha.
  { clear Hlib El Hacc. destruct (commands_run dashed d words c touched fn argv H) as (E & _). rewrite E in Es. clear E. unfold Cli.run in Es. destruct (parse d c argv) as [| |args0 kw0]; [discriminate|discriminate|].
    intros ->. destruct dashed; cbn [commands In] in H.
    all: repeat match type of H with False => destruct H | _ \/ _ => destruct H as [H | H]; [injection H as <- <- <- <-|] end.
    all: match type of Es with body_of ?n ?m _ _ = _ => let x := eval hnf in (body_of n m) in change (body_of n m) with x in Es end.
    all: unfold average_body, convert_body, sum_body, spreading_collect_body, spreading_view_body, spreading_fit_body, interface_angle_body, interface_collect_body,
      interface_view_body, interface_sample_body, contact_line_collect_body, view_height_body, view_contour_body, view_flow_body in Es; cbv zeta in Es.
    all: try match type of Es with (if ?b then _ else _) = _ => destruct b; [|discriminate] end.
    all: try match type of Es with match ?a with _ => _ end = _ => destruct a as [|? [|? [|]]]; try discriminate end.
    all: pose proof (f_equal (fun a => match a with ACall _ _ _ p => p | _ => Ignore end) Es) as E2; cbv beta iota in E2; clear Es.
    all: try discriminate E2; try congruence; try reflexivity.
    all: match type of E2 with (if ?b then _ else _) = _ => destruct b; discriminate end. }
  unfold finish. destruct r, after; try (eexists; reflexivity); exfalso; rewrite (Ha eq_refl) in El; unfold library_all in El.
  all: change (library w d "view_interfaces" args kw) with (@None (Utils.disk * res returned)) in El; cbn [String.eqb Ascii.eqb Bool.eqb] in El.
  all: unfold call in El; destruct (interface_view_args args kw) as [[[[[[? ?] ?] ?] ?] ?]|]; [|discriminate El].
  all: match type of El with context [InterfaceViewFiles.view_interfaces ?a1 ?a2 ?a3 ?a4 ?a5 ?a6 ?a7 ?a8] => destruct (InterfaceViewFiles.view_interfaces a1 a2 a3 a4 a5 a6 a7 a8) as [[? ?] [?|?]] end; discriminate El.
Qed.
Print Assumptions C79_program_ends_partial.
(** ** Concrete command lines.  With '-x' the run fails, after the old file is backed up (C83_saving_refuted). *)
Example C78_ex_interface_view : outcome_of (program ex_world true InterfaceViewRunProps.ex_disk ["interface"; "view"; "i_"; "-av=2"; "-o"; "fig_"; "-x"; "a_"]) =
    Some (["#a_00001.xvg.1#"; "i_00001.xvg"; "i_00002.xvg"; "i_00003.xvg"; "i_00004.xvg"; "i_00005.xvg"], [], Some KeyErr) /\
  outcome_of (program ex_world true InterfaceViewRunProps.ex_disk ["interface"; "view"; "i_"; "-av=2"; "-o"; "fig_"]) =
    Some (["i_00001.xvg"; "i_00002.xvg"; "i_00003.xvg"; "i_00004.xvg"; "i_00005.xvg"; "a_00001.xvg"], [], None).
Proof. split; vm_compute; reflexivity. Qed.
Ltac not_there := intros x Hx; cbn in Hx; repeat (destruct Hx as [<- | Hx]; [cbn; intuition discriminate|]); destruct Hx.
Ltac not_said := right; split; [not_there|reflexivity].
Example C78_ex_sample w : program w true InterfaceFilesProps.ex_disk ["sample"; "-o"; "u.xvg"; "--process=sum"; "map_"; "U"; "V"] =
  ends (SampleFiles.sample_average_run (w_ffuel w) (w_fuel w) (header_of w "strata.sample_average")
    (SampleFiles.mkAvtexts (w_repr w (VTuple [VText "U"; VText "V"])) (w_real w "map_") (w_repr w VNone) (w_repr w VNone)) ["U"; "V"]
    {| SampleFiles.av_sum := true; SampleFiles.av_dt := ZQ 1; SampleFiles.av_cutoff_label := None; SampleFiles.av_cutoff := None;
       SampleFiles.av_viscosity := Q2Qc (877 # 1000000); SampleFiles.av_floor := ZQ 0; SampleFiles.av_xlim := (None, None); SampleFiles.av_ylim := (None, None) |}
    InterfaceFilesProps.ex_disk "map_" "u.xvg" (files_from 1 None ".dat")).
Proof.
  change (map VText ["U"; "V"]) with [VText "U"; VText "V"].
  apply (C78_sample w true InterfaceFilesProps.ex_disk ["-o"; "u.xvg"; "--process=sum"; "map_"; "U"; "V"] [("-o", ["u.xvg"]); ("--process", ["sum"])]
    "map_" ["U"; "V"] "u.xvg" (ZQ 1) "sum" None None (ZQ 0) true (None, None) (None, None) 1%Z None ".dat").
  - apply (writes_ext (arity sample_cmd)); [intros f; exact (arity_flatten sample_cmd f)|]. apply scan_writes; reflexivity.
  - not_there.
  - discriminate.
  - left. exists "-o", "u.xvg". split; [split; [cbn; auto|exists [], [("--process", ["sum"])]; split; [reflexivity|not_there]]|reflexivity].
  - not_said.
  - left. exists "--process", "sum". split; [split; [cbn; auto|exists [("-o", ["u.xvg"])], []; split; [reflexivity|not_there]]|split; [cbn; auto|reflexivity]].
  - not_said.
  - not_said.
  - not_said.
  - not_said.
  - not_said.
  - not_said.
  - not_said.
  - not_said.
  - not_said.
Qed.
Example C78_ex_angle w : program w true InterfaceViewRunProps.ex_disk ["interface"; "angle"; "-h"; "1.5"; "i_"] =
  ends (SampleFiles.angle_run (w_ffuel w) (header_of w "strata.interface.angle") (w_real w "i_") (w_repr w (VNum (Fin (Q2Qc (3 # 2)))))
    InterfaceViewRunProps.ex_disk "i_" false (Some (Q2Qc (3 # 2))) (ZQ 1) "" (files_from 1 None ".xvg")).
Proof.
  apply (C78_interface_angle w true InterfaceViewRunProps.ex_disk ["-h"; "1.5"; "i_"] [("-h", ["1.5"])]
    "i_" false (Some (Q2Qc (3 # 2))) (ZQ 1) None None false (None, None) (None, None) "Contact angles" "t (ps)" "angle (deg.)" 1%Z None ".xvg").
  - apply (writes_ext (arity interface_angle_cmd)); [intros f; rewrite angle_takes; exact (arity_flatten interface_angle_cmd f)|]. apply scan_writes; reflexivity.
  - not_there.
  - not_said.
  - left. exists "-h", "1.5". split; [split; [cbn; auto|exists [], []; split; [reflexivity|not_there]]|]. left. exists (Q2Qc (3 # 2)). split; [|reflexivity].
    unfold number_text. replace (Fin (Q2Qc (3 # 2))) with (match py_float (txt "1.5") with Some x => x | None => NaN end) by (vm_compute; f_equal; apply Qc_is_canon; reflexivity).
    apply py_float_iff. vm_compute. reflexivity.
  - not_said.
  - not_said.
  - not_said.
  - not_said.
  - not_said.
  - not_said.
  - not_said.
  - not_said.
  - not_said.
  - not_said.
  - not_said.
  - not_said.
  - right. exists (Q2Qc (3 # 2)). split; [reflexivity|discriminate].
Qed.
