(** Model of /repo/strata/strata.py: the command line program.  What is printed besides the rows of 'spreading collect', and the figures, are
    not modelled. *)
From Coq Require Import String Ascii.
From Verif.Base Require Import QcX Res Np Bytes.
From Verif.Model Require Import Text PyText Click.
From Verif.Model Require Utils Formats Average Table Collect Spreading SpreadingView InterfaceFiles SpreadingFiles.
Local Open Scope string_scope.
Local Open Scope list_scope.

Definition num (n : Z) : val := VNum (Fin (ZQ n)).
Definition nones : val := VTuple [VNone; VNone].
Definition flag (on off : list string) (k : string) (b : bool) : opt := mkOpt on off k KBool 0 (VBool b).
Definition one (fs : list string) (k : string) (t : kind) (v : val) : opt := mkOpt fs [] k t 1 v.
Definition two (fs : list string) (k : string) (t : kind) (v : val) : opt := mkOpt fs [] k t 2 v.
(** Options which most commands share. *)
Definition range_opts (e : string) : list opt :=
  [one ["-b"; "--begin"] "begin" (KRange 0) (VInt 1); one ["-e"; "--end"] "end" (KRange 0) VNone; one ["--ext"] "ext" KText (VText e)].
Definition lim_opts : list opt := [two ["--xlim"] "xlim" KOptFloat nones; two ["--ylim"] "ylim" KOptFloat nones].
Definition label_opts (t x y : string) : list opt := [one ["--title"] "title" KText (VText t); one ["--xlabel"] "xlabel" KText (VText x); one ["--ylabel"] "ylabel" KText (VText y)].
Definition text_arg (k : string) : arg := mkArg k KText false true.
Definition files_arg : arg := mkArg "files" KExisting true false.
Definition cutoff_opts (c : val) : list opt :=
  [one ["-co"; "--cutoff"] "cutoff" KFloat c; one ["-cr"; "--cutoff_radius"] "cutoff_radius" KFloat (num 1); one ["-cb"; "--cutoff_bins"] "cutoff_bins" KInt (VInt 1)].

(** strata.py:191-225. *)
Definition average_cmd : command := mkCommand [text_arg "base"; text_arg "output"; mkArg "group" (KRange 1) false true]
  ([two ["--combine"] "combine" KOptInt nones; one ["--supersample"] "supersample" KOptInt VNone;
    one ["--recenter"] "recenter" (KChoice ["none"; "left"; "right"; "com"]) (VText "none"); flag ["--rolling"] ["--norolling"] "rolling" false;
    one ["--floor"] "floor" KFloat VNone] ++ cutoff_opts (num 0) ++ lim_opts ++ range_opts ".dat").
(** strata.py:257-271. *)
Definition convert_cmd : command := mkCommand [text_arg "base"; text_arg "output"]
  ([one ["--ftype"] "ftype" (KChoice ["gmx"; "simple"; "simple_plain"]) (VText "gmx")] ++ range_opts ".dat").
(** strata.py:292-319. *)
Definition spreading_collect_cmd : command := mkCommand [text_arg "base"; mkArg "floor" KFloat false true]
  ([one ["-o"; "--output"] "save" KText (VText "spread.xvg"); flag ["--nooutput"] [] "nooutput" false; one ["-dt"; "--delta_t"] "dt" KFloat (num 1)]
   ++ cutoff_opts VNone ++ [one ["-t0"; "--time_init"] "t0" KFloat (num 0)] ++ range_opts ".dat" ++ [flag ["-v"; "--verbose"] [] "verbose" false]).
(** strata.py:355-381. *)
Definition spreading_view_cmd : command := mkCommand [files_arg]
  ([one ["-t"; "--tau"] "tau" KFloat (num 1); one ["-r"; "--radius"] "R" KFloat (num 1); one ["-rs"; "--sync_radius"] "sync_radius" KFloat VNone;
    one ["-o"; "--save_fig"] "save_fig" KText VNone; one ["-x"; "--save_xvg"] "save_xvg" KText VNone; flag ["--show"] ["--noshow"] "show" true;
    flag ["--loglog"] [] "loglog" false] ++ lim_opts ++ label_opts "Droplet spreading" "Time (ps)" "Radius (nm)").
(** strata.py:395-423. *)
Definition spreading_fit_cmd : command := mkCommand [files_arg]
  ([two ["--lims"] "lims" KOptFloat nones; two ["--out_lims"] "out_lims" KOptFloat nones;
    one ["-o"; "--save_fig"] "save_fig" KText VNone; one ["-x"; "--save_xvg"] "save_xvg" KText VNone; flag ["--print"] ["--noprint"] "print" true;
    flag ["--show"] ["--noshow"] "show" true; flag ["--loglog"] [] "loglog" false; flag ["--legend"] ["--nolegend"] "legend" true]
   ++ lim_opts ++ label_opts "Droplet spreading with fit" "Time (ps)" "Radius (nm)").
(** strata.py:454-476. *)
Definition interface_collect_cmd : command := mkCommand [text_arg "base"; text_arg "output"]
  ([one ["--recenter"] "recenter" (KChoice ["off"; "com"; "zero"]) (VText "zero")] ++ cutoff_opts VNone ++ [two ["--ylim"] "ylims" KOptFloat nones] ++ range_opts ".dat").
(** strata.py:502-533. *)
Definition interface_view_cmd : command := mkCommand [text_arg "base"]
  ([one ["-av"; "--average"] "average" (KRange 1) (VInt 1); one ["-o"; "--save_fig"] "save_fig" KText VNone; one ["-x"; "--save_xvg"] "save_xvg" KText (VText "");
    flag ["--show"] ["--noshow"] "show" true] ++ lim_opts ++ label_opts "Droplet interface" "x (nm)" "y (nm)" ++ range_opts ".xvg"
   ++ [one ["--extfig"] "extfig" KText (VText ".png")]).
(** strata.py:550-582. *)
Definition interface_sample_cmd : command := mkCommand [text_arg "base"; mkArg "variable" (KChoice ["area"; "length"]) false true]
  ([one ["-o"; "--save_fig"] "save_fig" KText VNone; one ["-x"; "--save_xvg"] "save_xvg" KText (VText ""); one ["-dt"; "--delta_t"] "delta_t" KFloat (num 1);
    flag ["--show"] ["--noshow"] "show" true] ++ lim_opts ++ [one ["--title"] "title" KText (VText "Droplet interface"); one ["--xlabel"] "xlabel" KText (VText "t (ps)");
    one ["--ylabel"] "ylabel" KText VNone] ++ range_opts ".xvg" ++ [one ["--extfig"] "extfig" KText (VText ".png")]).
(** strata.py:601-633. *)
Definition interface_angle_cmd : command := mkCommand [text_arg "base"]
  ([flag ["--fit"] ["--nofit"] "fit" false; one ["-h"; "--height"] "height" KOptFloat VNone; one ["-dt"; "--delta_t"] "delta_t" KFloat (num 1);
    one ["-o"; "--save_fig"] "save_fig" KText VNone; one ["-x"; "--save_xvg"] "save_xvg" KText VNone; flag ["--show"] ["--noshow"] "show" false]
   ++ lim_opts ++ label_opts "Contact angles" "t (ps)" "angle (deg.)" ++ range_opts ".xvg").
(** strata.py:664-697. *)
Definition contact_line_collect_cmd : command := mkCommand [text_arg "base"; text_arg "output"]
  ([one ["-av"; "--average"] "average" (KRange 1) (VInt 1); flag ["--rolling"] ["--norolling"] "rolling" false; flag ["--recenter"] ["--norecenter"] "recenter" true;
    flag ["--fuse"] ["--nofuse"] "fuse" false; one ["--floor"] "floor" KFloat VNone; two ["-ea"; "--extract_area"] "extract_area" KFloat (VTuple [num 1; num 1]);
    one ["-eh"; "--extract_height"] "extract_height" KFloat (num 0)] ++ cutoff_opts VNone ++ range_opts ".dat").
(** strata.py:726-763. *)
Definition contact_line_sample_cmd : command := mkCommand [text_arg "base"; mkArg "labels" KText true true]
  ([one ["-av"; "--average"] "average" (KRange 1) (VInt 1); flag ["--rolling"] ["--norolling"] "rolling" false; flag ["--recenter"] ["--norecenter"] "recenter" true;
    one ["--floor"] "floor" KFloat VNone; two ["-ea"; "--extract_area"] "extract_area" KFloat (VTuple [num 0; num 0]);
    one ["-eh"; "--extract_height"] "extract_height" KFloat (num 0); one ["-dt"; "--delta_t"] "dt" KFloat (num 1);
    one ["--process"] "process" (KChoice ["mean"; "sum"]) (VText "mean")] ++ cutoff_opts VNone ++ [one ["--save"] "save" KText VNone] ++ range_opts ".dat").
(** Options of the three commands for data maps (strata.py:801-987). *)
Definition save_opt : opt := one ["-o"; "--save_fig"] "save_fig" KText VNone.
Definition bar_opts (b : bool) : list opt :=
  [flag ["--colourbar"] ["--nocolourbar"] "colorbar" b; one ["--cbarlabel"] "cbarlabel" KText VNone; one ["--cbarticks"] "cbarticks" KFloats VNone;
   one ["--cbarticklabels"] "cbarticklabels" KTexts VNone; one ["-cmap"; "--colourmap"] "colormap" KText (VText "viridis")].
Definition figure_opts : list opt :=
  [flag ["--show"] ["--noshow"] "show" true; flag ["--transparent"] ["--notransparent"] "transparent" false; one ["--noaxis"] "noaxis" KBool (VBool false);
   two ["--dims"] "dims" KOptFloat VNone] ++ lim_opts.
(** strata.py:799-843. *)
Definition view_contour_cmd : command := mkCommand [files_arg]
  ([save_opt; one ["-l"; "--label"] "label" (KChoice ["M"; "N"; "T"; "U"; "V"; "flow"]) (VText "M"); one ["-n"; "--num_contours"] "num_contours" KInt (VInt 10);
    one ["-lv"; "--levels"] "contour_levels" KFloats VNone; one ["-c"; "--colours"] "contour_colours" KTexts VNone; flag ["--filled"] [] "filled" false;
    two ["--vlim"] "vlim" KOptFloat nones] ++ bar_opts false ++ figure_opts ++ label_opts "Droplet contours" "x (nm)" "y (nm)").
(** strata.py:857-904. *)
Definition view_height_cmd : command := mkCommand [files_arg]
  ([save_opt; one ["-l"; "--label"] "label" (KChoice ["M"; "N"; "T"; "U"; "V"; "flow"; "visc_diss"; "evaporation"]) (VText "M"); two ["--clim"] "clim" KOptFloat nones;
    two ["--vlim"] "vlim" KOptFloat nones; one ["-cl"; "--cutoff_label"] "cutoff_label" (KChoice ["M"; "N"; "T"; "U"; "V"; "None"; "flow"; "visc"]) VNone;
    one ["-co"; "--cutoff"] "cutoff" KFloat VNone] ++ bar_opts true ++ figure_opts ++ [one ["--dpi"] "dpi" KInt (VInt 150); flag ["--drawaxes"] ["--nodrawaxes"] "drawaxes" true]
   ++ label_opts "Droplet height map" "x (nm)" "y (nm)").
(** strata.py:920-967. *)
Definition view_flow_cmd : command := mkCommand [files_arg]
  ([save_opt; one ["-co"; "--cutoff"] "cutoff" KFloat VNone;
    one ["-cl"; "--colour_label"] "colour" (KChoice ["M"; "N"; "T"; "U"; "V"; "None"; "flow"; "visc"; "radial"; "evaporation"]) (VText "T"); one ["--scale"] "scale" KFloat (num 1);
    one ["--width"] "width" KFloat (VNum (Fin (Q2Qc (15 # 10000)))); one ["--pivot"] "pivot" (KChoice ["tail"; "middle"; "tip"]) (VText "middle");
    flag ["--streamlines"] ["--nostreamlines"] "streamlines" false; two ["--vlim"] "vlim" KOptFloat nones] ++ bar_opts false ++ figure_opts ++ [one ["--dpi"] "dpi" KInt (VInt 150)]
   ++ label_opts "Droplet height map" "x (nm)" "y (nm)").
(** strata.py:980-1009. *)
Definition sample_cmd : command := mkCommand [text_arg "base"; mkArg "labels" KText true true]
  ([one ["-o"; "--output"] "output" KText (VText "sample.xvg"); one ["-dt"; "--delta_t"] "dt" KFloat (num 1); one ["--process"] "process" (KChoice ["mean"; "sum"]) (VText "mean");
    one ["-co"; "--cutoff"] "cutoff" KFloat VNone; one ["-cl"; "--cutoff_label"] "cutoff_label" KText VNone; one ["-fl"; "--floor"] "slip_floor" KFloat (num 0);
    flag ["--show"] ["--noshow"] "verbose" true] ++ lim_opts ++ range_opts ".dat").

(** strata.py:1018-1020. *)
Definition set_none_to_inf (kw : kwargs) : kwargs := match get "end" kw with VNone => set "end" (VNum PInf) kw | _ => kw end.
(** [if not value]. *)
Definition truthy (v : val) : bool :=
  match v with
  | VNone => false | VBool b => b | VInt z => negb (z =? 0)%Z | VNum (Fin q) => negb (qeq q 0) | VNum _ => true
  | VText s => negb (String.eqb s "") | VTuple l => match l with [] => false | _ => true end
  end.
Definition is_text (v : val) (s : string) : bool := match v with VText t => String.eqb t s | _ => false end.

(** What is done with the result of a function: nothing, the rows are printed (strata.py:348-351), the parameters are printed (438-441), it is
    unpacked as two values (498, 546). *)
Inductive post := Ignore | PrintRows | PrintFits | UnpackTwo.
(** What a command line does: it is refused, shows a text, ends without doing anything, or calls a function of the library. *)
Inductive action := ARefused | AInfo | ANothing | ACall (fn : string) (args : list val) (kw : kwargs) (after : post).
(** The bodies of the commands. *)
(** strata.py:247-252. *)
Definition average_body (args : list val) (kw : kwargs) : action :=
  let kw := set_none_to_inf kw in
  ACall "average" args (if is_text (get "recenter" kw) "none" then set "recenter" VNone kw else kw) Ignore.
(** strata.py:280-281. *)
Definition convert_body (args : list val) (kw : kwargs) : action := ACall "convert" args (set_none_to_inf kw) Ignore.
(** strata.py:339-351. *)
Definition spreading_collect_body (args : list val) (kw : kwargs) : action :=
  let verbose := truthy (get "verbose" kw) in let kw := del "verbose" kw in
  let kw := if truthy (get "nooutput" kw) then set "save" VNone kw else kw in
  let kw := set_none_to_inf (del "nooutput" kw) in
  match args with
  | [base; floor] => ACall "collect" [base] (set "floor" floor kw) (if verbose then PrintRows else Ignore)
  | _ => ARefused
  end.
(** strata.py:392, 434-441. *)
Definition spreading_view_body (args : list val) (kw : kwargs) : action := ACall "view_spreading" args kw Ignore.
Definition spreading_fit_body (args : list val) (kw : kwargs) : action := 
  ACall "fit_spreading_data" args (del "print" kw) (if truthy (get "print" kw) then PrintFits else Ignore).
(** strata.py:496-498. *)
Definition interface_collect_body (args : list val) (kw : kwargs) : action :=
  let kw := set_none_to_inf kw in
  ACall "collect_interfaces" args (if is_text (get "recenter" kw) "off" then set "recenter" VNone kw else kw) UnpackTwo.
(** strata.py:545-546. *)
Definition interface_view_body (args : list val) (kw : kwargs) : action := ACall "view_interfaces" args (set_none_to_inf kw) UnpackTwo.
(** strata.py:590-597. *)
Definition interface_sample_body (args : list val) (kw : kwargs) : action :=
  let kw := if truthy (get "ylabel" kw) then kw
            else set "ylabel" (VText (if is_text (nth 1 args VNone) "area" then "A (nm^2)" else "L (nm)")) kw in
  ACall "sample_interfaces" args (set_none_to_inf kw) Ignore.
(** strata.py:650-656. *)
Definition interface_angle_body (args : list val) (kw : kwargs) : action :=
  if (truthy (get "fit" kw) || truthy (get "height" kw))%bool then ACall "interface_contact_angle" args (set_none_to_inf kw) Ignore else ANothing.
(** strata.py:721-722. *)
Definition contact_line_collect_body (args : list val) (kw : kwargs) : action := ACall "extract_contact_line_bins" args (set_none_to_inf kw) Ignore.
(** strata.py:787-790, 1012-1015. *)
Definition sum_body (fn : string) (args : list val) (kw : kwargs) : action :=
  let kw := set_none_to_inf kw in
  ACall fn args (set "sum" (VBool (is_text (get "process" kw) "sum")) (del "process" kw)) Ignore.
(** strata.py:854, 915-917, 977: the files are passed as positional arguments. *)
Definition spread_args (args : list val) : list val := flat_map (fun a => match a with VTuple l => l | v => [v] end) args.
Definition view_contour_body (args : list val) (kw : kwargs) : action := ACall "view_flowmap_2d" (spread_args args) (set "type" (VText "contour") kw) Ignore.
Definition view_height_body (args : list val) (kw : kwargs) : action :=
  ACall "view_flowmap_2d" (spread_args args) (set "type" (VText "height") (set "noaxis" (VBool (negb (truthy (get "drawaxes" kw)))) (del "drawaxes" kw))) Ignore.
Definition view_flow_body (args : list val) (kw : kwargs) : action := ACall "view_flowfields" (spread_args args) (set "cutoff_label" (VText "M") kw) Ignore.

Definition run (d : Utils.disk) (c : command) (body : list val -> kwargs -> action) (argv : list string) : action :=
  match parse d c argv with Refused => ARefused | Help => AInfo | Parsed args kw => body args kw end.
(** strata.py:84-187, 191-1015: the commands.  [dashed]: click 7 and later name the group of the function contact_line 'contact-line', earlier versions
    'contact_line'. *)
Definition contact_line_name (dashed : bool) : string := if dashed then "contact-line" else "contact_line".
(** The words before a command: '-h', '--help' and, for the main group only, '-V', '--version' show a text and end the program. *)
Definition info_cmd (main : bool) : command := mkCommand [] (if main then [flag ["-V"; "--version"] [] "version" false] else []).
Fixpoint group (c : command) (argv : list string) : option (bool * list string) :=
  match argv with
  | [] => Some (false, [])
  | a :: rest =>
    if String.eqb a "--" then Some (false, rest)
    else if looks_opt (txt a) then
      match token c a with
      | Some (_ :: _, None) => match group c rest with Some (_, w) => Some (true, w) | None => None end
      | _ => None
      end
    else Some (false, a :: rest)
  end.
(** Without any word the help is shown. *)
Definition in_group (main : bool) (argv : list string) (dispatch : string -> list string -> action) : action :=
  match argv with
  | [] => AInfo
  | _ => match group (info_cmd main) argv with
         | None => ARefused
         | Some (true, _) => AInfo
         | Some (false, []) => ARefused
         | Some (false, name :: rest) => dispatch name rest
         end
  end.
Definition strata (dashed : bool) (d : Utils.disk) (argv : list string) : action :=
  in_group true argv (fun name rest =>
    if String.eqb name "average" then run d average_cmd average_body rest
    else if String.eqb name "convert" then run d convert_cmd convert_body rest
    else if String.eqb name "sample" then run d sample_cmd (sum_body "sample_average_files") rest
    else if String.eqb name "spreading" then
      in_group false rest (fun name rest =>
        if String.eqb name "collect" then run d spreading_collect_cmd spreading_collect_body rest
        else if String.eqb name "view" then run d spreading_view_cmd spreading_view_body rest
        else if String.eqb name "fit" then run d spreading_fit_cmd spreading_fit_body rest
        else ARefused)
    else if String.eqb name "interface" then
      in_group false rest (fun name rest =>
        if String.eqb name "angle" then run d interface_angle_cmd interface_angle_body rest
        else if String.eqb name "collect" then run d interface_collect_cmd interface_collect_body rest
        else if String.eqb name "view" then run d interface_view_cmd interface_view_body rest
        else if String.eqb name "sample" then run d interface_sample_cmd interface_sample_body rest
        else ARefused)
    else if String.eqb name (contact_line_name dashed) then
      in_group false rest (fun name rest =>
        if String.eqb name "collect" then run d contact_line_collect_cmd contact_line_collect_body rest
        else if String.eqb name "sample" then run d contact_line_sample_cmd (sum_body "sample_contact_line_edges") rest
        else ARefused)
    else if String.eqb name "view" then
      in_group false rest (fun name rest =>
        if String.eqb name "height" then run d view_height_cmd view_height_body rest
        else if String.eqb name "contour" then run d view_contour_cmd view_contour_body rest
        else if String.eqb name "flow" then run d view_flow_cmd view_flow_body rest
        else ARefused)
    else ARefused).

(** ** The library functions with keyword arguments *)
(** Values which the models of the functions do not cover (numbers which are not finite, negative factors) give RuntimeErr. *)
Definition as_text (v : val) : res string := match v with VText s => Ok s | _ => Err RuntimeErr end.
Definition as_int (v : val) : res Z := match v with VInt z => Ok z | _ => Err RuntimeErr end.
Definition as_bool (v : val) : res bool := match v with VBool b => Ok b | _ => Err RuntimeErr end.
Definition as_num (v : val) : res Qc := match v with VNum (Fin q) => Ok q | _ => Err RuntimeErr end.
Definition as_bound (v : val) : res Utils.bound := match v with VInt z => Ok (Utils.Upto z) | VNum PInf => Ok Utils.Inf | _ => Err RuntimeErr end.
Definition as_nat (v : val) : res nat := match v with VInt z => if (0 <=? z)%Z then Ok (Z.to_nat z) else Err RuntimeErr | _ => Err RuntimeErr end.
Definition as_opt {A} (f : val -> res A) (v : val) : res (option A) := match v with VNone => Ok None | v => rmap Some (f v) end.
Definition as_lim (v : val) : res (option Qc * option Qc) :=
  match v with VTuple [a; b] => do a <- as_opt as_num a; do b <- as_opt as_num b; Ok (a, b) | _ => Err RuntimeErr end.
(** utils.py:208-236 [pop_fileopts]. *)
Definition as_fopts (kw : kwargs) : res Utils.fopts :=
  do b <- as_int (get "begin" kw); do e <- as_bound (get "end" kw); do x <- as_text (get "ext" kw);
  Ok {| Utils.o_begin := Some b; Utils.o_end := Some e; Utils.o_ext := Some x; Utils.o_outext := None |}.
(** average.py:95-97: [int(None)] raises TypeError. *)
Definition as_combine (v : val) : res (option (nat * nat)) :=
  match v with
  | VTuple [VNone; VNone] => Ok None
  | VTuple [VNone; _] => Err TypeErr
  | VTuple [_; VNone] => Err TypeErr
  | VTuple [a; b] => do a <- as_nat a; do b <- as_nat b; Ok (Some (a, b))
  | _ => Err RuntimeErr
  end.
(** What is fixed outside of the command line: bounds for the loops of the model, the date, version and directory in headers, the texts of absolute
    paths ([repr(os.path.realpath(s))]) and of values ([repr]), and of tables. *)
Record world := mkWorld { w_ffuel : nat; w_fuel : nat; w_env : InterfaceFiles.env; w_real : string -> bytes; w_repr : val -> bytes; w_show : SpreadingView.curve -> bytes }.
(** What a function returns: None, the rows of 'spreading collect', or another pair of lists (which no command uses). *)
Inductive returned := RNone | RRows (l : list (ext * ext)) | RPair.
Definition plain (r : Utils.disk * option exn) : Utils.disk * res returned := (fst r, match snd r with None => Ok RNone | Some e => Err e end).
(** Arguments which cannot be read: nothing is done. *)
Definition call {A} (d : Utils.disk) (r : res A) (f : A -> Utils.disk * res returned) : Utils.disk * res returned :=
  match r with Ok a => f a | Err e => (d, Err e) end.
(** average.py:14-99. *)
Definition average_args (args : list val) (kw : kwargs) : res (string * string * Z * bool * Average.aopts * Utils.fopts) :=
  match args with
  | [b; o; g] =>
    do b <- as_text b; do o <- as_text o; do g <- as_int g; do fo <- as_fopts kw; do rolling <- as_bool (get "rolling" kw);
    do rec <- as_opt as_text (get "recenter" kw); do radius <- as_num (get "cutoff_radius" kw); do xlim <- as_lim (get "xlim" kw); do ylim <- as_lim (get "ylim" kw);
    do comb <- as_combine (get "combine" kw); do sup <- as_opt as_nat (get "supersample" kw);
    do floor <- as_opt as_num (get "floor" kw); do cutoff <- as_opt as_num (get "cutoff" kw); do bins <- as_int (get "cutoff_bins" kw);
    Ok (b, o, g, rolling, Average.mkAopts xlim ylim comb (match rec with Some r => r | None => "" end) sup floor cutoff bins radius false, fo)
  | _ => Err RuntimeErr
  end.
(** convert.py:9-57. *)
Definition convert_args (args : list val) (kw : kwargs) : res (string * string * string * Utils.fopts) :=
  match args with
  | [b; o] => do b <- as_text b; do o <- as_text o; do fo <- as_fopts kw; do t <- as_text (get "ftype" kw); Ok (b, o, t, fo)
  | _ => Err RuntimeErr
  end.
(** spreading/collect.py:90-104,115-116. *)
Definition spreading_args (args : list val) (kw : kwargs) : res (string * option string * SpreadingFiles.sopts * Qc * Qc * Utils.fopts) :=
  match args with
  | [b] =>
    do b <- as_text b; do fo <- as_fopts kw; do save <- as_opt as_text (get "save" kw); do dt <- as_num (get "dt" kw); do t0 <- as_num (get "t0" kw);
    do radius <- as_num (get "cutoff_radius" kw); do cutoff <- as_opt as_num (get "cutoff" kw); do bins <- as_int (get "cutoff_bins" kw);
    do floor <- as_opt as_num (get "floor" kw);
    Ok (b, save, SpreadingFiles.mkSopts cutoff radius bins floor, dt, t0, fo)
  | _ => Err RuntimeErr
  end.
(** spreading/collect.py:68-78, 346-368: the values in the header.  The radius is looked up as 'include_radius', which no command gives. *)
Definition spreading_info (w : world) (base : string) (kw : kwargs) : SpreadingFiles.sinfo :=
  let r k := w_repr w (get k kw) in
  SpreadingFiles.mkSinfo (InterfaceFiles.e_date (w_env w)) (InterfaceFiles.e_version (w_env w)) (w_real w base) (r "begin") (r "end") (r "floor") (r "dt") (r "cutoff")
    (w_repr w (if has "include_radius" kw then get "include_radius" kw else num 1)) (r "cutoff_bins").
(** spreading/view.py:12-65. *)
Definition view_args (args : list val) (kw : kwargs) : res (list string * option Qc * Qc * Qc * option string) :=
  match args with
  | [VTuple fs] =>
    do fs <- rmapM as_text fs; do sync <- as_opt as_num (get "sync_radius" kw); do tau <- as_num (get "tau" kw); do R <- as_num (get "R" kw);
    do save <- as_opt as_text (get "save_xvg" kw); Ok (fs, sync, tau, R, save)
  | _ => Err RuntimeErr
  end.
(** interface/collect.py:45-73, 78-122: 'recenter' is compared with 'zero' and 'com'. *)
Definition collect_args (args : list val) (kw : kwargs)
    : res (string * string * option Qc * Qc * Z * (option Qc * option Qc) * Collect.recentre * Utils.fopts) :=
  match args with
  | [b; o] =>
    do b <- as_text b; do o <- as_text o; do fo <- as_fopts kw; do rec <- as_opt as_text (get "recenter" kw);
    do radius <- as_num (get "cutoff_radius" kw); do cutoff <- as_opt as_num (get "cutoff" kw); do bins <- as_int (get "cutoff_bins" kw);
    do lims <- as_lim (get "ylims" kw);
    Ok (b, o, cutoff, radius, bins, lims,
        match rec with Some r => if String.eqb r "zero" then Collect.Zero else if String.eqb r "com" then Collect.Com else Collect.OtherOption | None => Collect.OtherOption end, fo)
  | _ => Err RuntimeErr
  end.
(** interface/collect.py:69, 346-356: the header names the output as the input. *)
Definition interface_head (w : world) (kw : kwargs) (out : string) : list bytes :=
  let r k := w_repr w (get k kw) in
  InterfaceFiles.interface_header (w_env w) [txt out] (Some (r "recenter", r "cutoff", r "cutoff_radius", r "cutoff_bins")).
(** The functions of the library with a model of their effects on files; [None] for the others.  A new process starts with [impact] false. *)
Definition library (w : world) (d : Utils.disk) (fn : string) (args : list val) (kw : kwargs) : option (Utils.disk * res returned) :=
  if String.eqb fn "average" then
    Some (call d (average_args args kw) (fun '(b, o, g, rolling, opts, fo) => plain (Average.average (w_ffuel w) (w_fuel w) opts false d b o g rolling fo)))
  else if String.eqb fn "convert" then
    Some (call d (convert_args args kw) (fun '(b, o, t, fo) => plain (Formats.convert_run (w_ffuel w) (w_fuel w) (Some t) d b o fo)))
  else if String.eqb fn "collect" then
    Some (call d (spreading_args args kw) (fun '(b, save, so, dt, t0, fo) =>
      let '(d', _, rows) := SpreadingFiles.spreading_run (w_ffuel w) (w_fuel w) (SpreadingFiles.spreading_header (spreading_info w b kw)) so dt t0 d false b save fo in (d', rmap RRows rows)))
  else if String.eqb fn "view_spreading" then
    Some (call d (view_args args kw) (fun '(fs, sync, tau, R, save) =>
      match SpreadingFiles.view_spreading d fs sync [tau] [R] (Some save) (w_env w) (w_show w) with Ok (d', _) => (d', Ok RNone) | Err e => (d, Err e) end))
  else if String.eqb fn "collect_interfaces" then
    Some (call d (collect_args args kw) (fun '(b, o, cutoff, radius, bins, lims, rec, fo) =>
      plain (InterfaceFiles.collect_files (w_ffuel w) (w_fuel w) (interface_head w kw) cutoff (Some radius) bins lims rec d b o fo)))
  else None.

(** ['%.3f' % x]. *)
Definition fmt3 (x : ext) : bytes := match x with Fin q => Table.fmt_fixed 3 q | PInf => txt "inf" | NInf => txt "-inf" | NaN => txt "nan" end.
(** strata.py:348-351. *)
Definition print_rows (l : list (ext * ext)) : list bytes := txt "Time (ps) Radius (nm)" :: map (fun r => fmt3 (fst r) ++ txt " " ++ fmt3 (snd r)) l.
(** The disk afterwards, what is printed by strata.py itself, and the exception with which the program ends, if any. *)
Inductive outcome := Usage | Info | Nothing | Done (d : Utils.disk) (printed : list bytes) (e : option exn).
Definition finish (p : post) (d : Utils.disk) (r : res returned) : outcome :=
  match r, p with
  | Err e, _ => Done d [] (Some e)
  | Ok (RRows l), PrintRows => Done d (print_rows l) None
  | Ok RNone, UnpackTwo => Done d [] (Some TypeErr)
  | Ok _, _ => Done d [] None
  end.
(** The program: [None] if it calls a function whose effects on files are not modelled here. *)
Definition main (w : world) (dashed : bool) (d : Utils.disk) (argv : list string) : option outcome :=
  match strata dashed d argv with
  | ARefused => Some Usage
  | AInfo => Some Info
  | ANothing => Some Nothing
  | ACall fn args kw after => option_map (fun r => finish after (fst r) (snd r)) (library w d fn args kw)
  end.
