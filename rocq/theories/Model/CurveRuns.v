(** Model of the commands of /repo/strata/strata.py which draw curves, with their figures: 'spreading view' (355-392), 'spreading fit' (395-441), 'interface angle' (601-656),
    'interface sample' (550-597) and 'interface view' (502-546). *)
From Coq Require Import String Ascii Reals.
From Verif.Base Require Import QcX QcR Res Np Bytes.
From Verif.Model Require Import Click Cli CliRuns CliDraw CurveFigures.
From Verif.Model Require Utils Formats InterfaceFiles SpreadingView SpreadingFiles InterfaceAngle FitRuns.
Import Utils(disk).
Local Open Scope string_scope.
Local Open Scope list_scope.

(** spreading/view.py:11-12: the keywords which are parameters; Python leaves the others in [kwargs]. *)
Definition draw_spreading (lib : library) (w : world) (dashed : bool) (d : disk) (argv : list string) : option (disk * option figure * option exn) :=
  match strata dashed d argv with
  | ACall fn args kw _ =>
    if String.eqb fn "view_spreading" then
      match view_args args kw with
      | Ok (fs, sync, tau, R, save) => Some (view_spreading lib d fs sync [tau] [R] (Some save) (w_env w) (w_show w) (without ["sync_radius"; "tau"; "R"; "save_xvg"] kw))
      | Err _ => None
      end
    else None
  | _ => None
  end.
(** spreading/fit.py:11-12.  [show]: the texts of pandas, [params]: the parameters found (see FitRuns.v). *)
Definition fit_args (args : list val) (kw : kwargs) : res (list string * (option Qc * option Qc) * (option Qc * option Qc) * option string) :=
  match args with
  | [VTuple fs] => do fs <- rmapM as_text fs; do l <- as_lim (get "lims" kw); do o <- as_lim (get "out_lims" kw); do save <- as_opt as_text (get "save_xvg" kw); Ok (fs, l, o, save)
  | _ => Err RuntimeErr
  end.
Definition limit_val (l : option Qc) : val := match l with Some q => VNum (Fin q) | None => VNone end.
Definition draw_fits (lib : library) (w : world) (show : list (R * R) -> bytes) (params : list (R * R)) (dashed : bool) (d : disk) (argv : list string)
    : option (disk * option figure * res (list (R * R))) :=
  match strata dashed d argv with
  | ACall fn args kw _ =>
    if String.eqb fn "fit_spreading_data" then
      match fit_args args kw with
      | Ok (fs, l, o, save) => Some (FitRuns.fit_run lib d fs (Some l) (Some o) save (env_in w "strata.spreading.fit") (fun x => w_repr w (limit_val x)) show params (without ["lims"; "out_lims"; "save_xvg"] kw))
      | Err _ => None
      end
    else None
  | _ => None
  end.
(** interface/angle.py:8-10, with the decorators of strata/utils.py:10-150, 202-228, which take the keywords of files. *)
Definition draw_angles (lib : library) (w : world) (dashed : bool) (d : disk) (argv : list string) : option (disk * option figure * res (list Qc * InterfaceAngle.found)) :=
  match strata dashed d argv with
  | ACall fn args kw _ =>
    if String.eqb fn "interface_contact_angle" then
      match angle_args args kw with
      | Ok (b, fit, h, dt, save, fo) => Some (angle_figure lib (w_ffuel w) (env_in w "strata.interface.angle") (w_real w b) (w_repr w (get "height" kw)) d b fit h dt save fo
          (without ["begin"; "end"; "ext"; "fit"; "height"; "delta_t"; "save_xvg"] kw))
      | Err _ => None
      end
    else None
  | _ => None
  end.
(** interface/sample.py:8-10.  'extfig' is not a parameter and is left in [kwargs], which do not reach the drawing of the curve. *)
Definition draw_samples (lib : library) (w : world) (dashed : bool) (d : disk) (argv : list string) : option (disk * option figure * res (list (Qc * R))) :=
  match strata dashed d argv with
  | ACall fn args kw _ =>
    if String.eqb fn "sample_interfaces" then
      match interface_sample_args args kw with
      | Ok (b, v, save, dt, fo) => Some (sample_figure lib (w_ffuel w) (env_in w "strata.interface.sample") (w_real w b) v dt d b save fo (without ["begin"; "end"; "ext"; "save_xvg"; "delta_t"] kw))
      | Err _ => None
      end
    else None
  | _ => None
  end.
(** interface/view.py:10-12.  [None] with saved averages, for which no figure can be drawn (C83). *)
Definition draw_interfaces (lib : library) (w : world) (dashed : bool) (d : disk) (argv : list string) : option (list figure * res (list (list Qc) * list (list Qc))) :=
  match strata dashed d argv with
  | ACall fn args kw _ =>
    if String.eqb fn "view_interfaces" then
      match interface_view_args args kw with
      | Ok (b, av, save, fig, x, fo) =>
        if String.eqb save "" then Some (interface_figures lib (w_ffuel w) d b av fig x fo (without ["begin"; "end"; "ext"; "average"; "save_xvg"; "save_fig"; "extfig"] kw)) else None
      | Err _ => None
      end
    else None
  | _ => None
  end.
