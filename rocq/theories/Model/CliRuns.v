(** Model of /repo/strata/strata.py: more functions of the library which the commands call, with the models of their runs over files. *)
From Coq Require Import String Ascii Reals.
From Verif.Base Require Import QcX Res Np Bytes.
From Verif.Model Require Import Text PyText Click Cli.
From Verif.Model Require Utils Formats InterfaceFiles SampleFiles InterfaceViewFiles EdgesFiles.
Local Open Scope string_scope.
Local Open Scope list_scope.

(** The headers name the module ([__name__]) which writes them. *)
Definition env_in (w : world) (module : string) : InterfaceFiles.env :=
  InterfaceFiles.mkEnv (txt module) (InterfaceFiles.e_date (w_env w)) (InterfaceFiles.e_version (w_env w)) (InterfaceFiles.e_cwd (w_env w)).
(** sample_average.py:13-15, 85-93; the viscosity is no option. *)
Definition sample_args (args : list val) (kw : kwargs) : res (string * list string * SampleFiles.avopts * string * Utils.fopts) :=
  match args with
  | [b; VTuple ls] =>
    do b <- as_text b; do ls <- rmapM as_text ls; do fo <- as_fopts kw; do out <- as_text (get "output" kw); do sum <- as_bool (get "sum" kw); do dt <- as_num (get "dt" kw);
    do cl <- as_opt as_text (get "cutoff_label" kw); do co <- as_opt as_num (get "cutoff" kw); do fl <- as_num (get "slip_floor" kw); do xlim <- as_lim (get "xlim" kw); do ylim <- as_lim (get "ylim" kw);
    Ok (b, ls, SampleFiles.mkAv sum dt cl co (Q2Qc (877 # 1000000)) fl xlim ylim, out, fo)
  | _ => Err RuntimeErr
  end.
(** sample_average.py:247-275. *)
Definition sample_texts (w : world) (base : string) (args : list val) (kw : kwargs) : SampleFiles.avtexts :=
  SampleFiles.mkAvtexts (w_repr w (nth 1 args VNone)) (w_real w base) (w_repr w (get "cutoff" kw)) (w_repr w (get "cutoff_label" kw)).
(** interface/sample.py:8, 34-36. *)
Definition interface_sample_args (args : list val) (kw : kwargs) : res (string * string * string * Qc * Utils.fopts) :=
  match args with
  | [b; v] => do b <- as_text b; do v <- as_text v; do fo <- as_fopts kw; do save <- as_text (get "save_xvg" kw); do dt <- as_num (get "delta_t" kw); Ok (b, v, save, dt, fo)
  | _ => Err RuntimeErr
  end.
(** interface/angle.py:8, 52-56. *)
Definition angle_args (args : list val) (kw : kwargs) : res (string * bool * option Qc * Qc * string * Utils.fopts) :=
  match args with
  | [b] =>
    do b <- as_text b; do fo <- as_fopts kw; do fit <- as_bool (get "fit" kw); do h <- as_opt as_num (get "height" kw); do dt <- as_num (get "delta_t" kw);
    do save <- as_opt as_text (get "save_xvg" kw); Ok (b, fit, h, dt, match save with Some s => s | None => "" end, fo)
  | _ => Err RuntimeErr
  end.
(** interface/view.py:10, 55-67. *)
Definition interface_view_args (args : list val) (kw : kwargs) : res (string * Z * string * option string * string * Utils.fopts) :=
  match args with
  | [b] =>
    do b <- as_text b; do fo <- as_fopts kw; do av <- as_int (get "average" kw); do save <- as_text (get "save_xvg" kw); do fig <- as_opt as_text (get "save_fig" kw);
    do x <- as_text (get "extfig" kw); Ok (b, av, save, fig, x, fo)
  | _ => Err RuntimeErr
  end.
(** contact_line_analysis.py:44-61, 131-161; droplets/contact_line.py:6-7; interface.py:98 (the options of the search for the interface).  'quiet' is no option of the commands. *)
Definition edge_args (kw : kwargs) : res EdgesFiles.edge_opts :=
  do av <- as_int (get "average" kw); do rolling <- as_bool (get "rolling" kw); do rec <- as_bool (get "recenter" kw); do fl <- as_opt as_num (get "floor" kw);
  do area <- match get "extract_area" kw with VTuple [a; b] => do a <- as_num a; do b <- as_num b; Ok (a, b) | _ => Err RuntimeErr end;
  do h <- as_num (get "extract_height" kw); do co <- as_opt as_num (get "cutoff" kw); do cr <- as_num (get "cutoff_radius" kw); do cb <- as_int (get "cutoff_bins" kw);
  Ok (EdgesFiles.mkEdgeOpts co (Some cr) cb fl area h av rolling rec false).
Definition contact_collect_args (args : list val) (kw : kwargs) : res (string * string * EdgesFiles.edge_opts * bool * Utils.fopts) :=
  match args with
  | [b; o] => do b <- as_text b; do o <- as_text o; do fo <- as_fopts kw; do eo <- edge_args kw; do fuse <- as_bool (get "fuse" kw); Ok (b, o, eo, fuse, fo)
  | _ => Err RuntimeErr
  end.
Definition contact_sample_args (args : list val) (kw : kwargs) : res (string * list string * EdgesFiles.edge_opts * Qc * string * Utils.fopts) :=
  match args with
  | [b; VTuple ls] =>
    do b <- as_text b; do ls <- rmapM as_text ls; do fo <- as_fopts kw; do eo <- edge_args kw; do dt <- as_num (get "dt" kw); do save <- as_opt as_text (get "save" kw);
    Ok (b, ls, eo, dt, match save with Some s => s | None => "" end, fo)
  | _ => Err RuntimeErr
  end.
(** The functions of the library with a model of their effects on files; [None] for the others. *)
Definition library_all (w : world) (d : Utils.disk) (fn : string) (args : list val) (kw : kwargs) : option (Utils.disk * res returned) :=
  match library w d fn args kw with
  | Some r => Some r
  | None =>
    if String.eqb fn "sample_average_files" then
      Some (call d (sample_args args kw) (fun '(b, ls, o, out, fo) =>
        let r := SampleFiles.sample_average_run (w_ffuel w) (w_fuel w) (env_in w "strata.sample_average") (sample_texts w b args kw) ls o d b out fo in
        (fst r, rmap (fun x => match x with Some _ => RPair | None => RNone end) (snd r))))
    else if String.eqb fn "sample_interfaces" then
      Some (call d (interface_sample_args args kw) (fun '(b, v, save, dt, fo) =>
        let r := SampleFiles.sample_interfaces (w_ffuel w) (env_in w "strata.interface.sample") (w_real w b) v dt d b save fo in (fst r, rmap (fun _ => RPair) (snd r))))
    else if String.eqb fn "interface_contact_angle" then
      Some (call d (angle_args args kw) (fun '(b, fit, h, dt, save, fo) =>
        let r := SampleFiles.angle_run (w_ffuel w) (env_in w "strata.interface.angle") (w_real w b) (w_repr w (get "height" kw)) d b fit h dt save fo in (fst r, rmap (fun _ => RPair) (snd r))))
    else if String.eqb fn "view_interfaces" then
      Some (call d (interface_view_args args kw) (fun '(b, av, save, fig, x, fo) =>
        let '(d', _, r) := InterfaceViewFiles.view_interfaces (w_ffuel w) d b av save fig x fo in (d', rmap (fun _ => RPair) r)))
    else if String.eqb fn "extract_contact_line_bins" then
      Some (call d (contact_collect_args args kw) (fun '(b, o, eo, fuse, fo) =>
        let r := EdgesFiles.extract_run (w_ffuel w) (w_fuel w) eo fuse d b o fo in (fst r, rmap (fun _ => RNone) (snd r))))
    else if String.eqb fn "sample_contact_line_edges" then
      Some (call d (contact_sample_args args kw) (fun '(b, ls, eo, dt, save, fo) =>
        let r := EdgesFiles.sample_run (w_ffuel w) (w_fuel w) (env_in w "strata.contact_line_analysis")
          (EdgesFiles.mkCltexts (w_repr w (nth 1 args VNone)) (w_real w b) (w_repr w (get "cutoff" kw))) ls eo dt d b save fo in (fst r, rmap (fun _ => RPair) (snd r))))
    else None
  end.
(** The program: [None] if it calls a function whose effects on files are not modelled here. *)
Definition program (w : world) (dashed : bool) (d : Utils.disk) (argv : list string) : option outcome :=
  match strata dashed d argv with
  | ARefused => Some Usage
  | AInfo => Some Info
  | ANothing => Some Nothing
  | ACall fn args kw after => option_map (fun r => finish after (fst r) (snd r)) (library_all w d fn args kw)
  end.
