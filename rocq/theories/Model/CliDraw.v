(** Model of the commands 'strata view' of /repo/strata/strata.py with the figures they draw (/repo/strata/view_flowmap.py). *)
From Coq Require Import String Ascii Reals.
From Verif.Base Require Import QcX QcR Res Np Bytes.
From Verif.Model Require Import Click Cli Figure Bins ViewRuns.
From Verif.Model Require Utils.
Local Open Scope string_scope.
Local Open Scope list_scope.

(** Python binds keywords with the names of parameters to them and leaves the others in [kwargs]. *)
Definition without (ks : list string) (kw : kwargs) : kwargs := fold_left (fun kw k => del k kw) ks kw.
(** Values of parameters: None or a number (which is finite, others are not modelled), None or a text. *)
Definition maybe_number (v : val) : option (option Qc) := match v with VNone => Some None | VNum (Fin q) => Some (Some q) | _ => None end.
Definition maybe_text (v : val) : option (option string) := match v with VNone => Some None | VText s => Some (Some s) | _ => None end.
Definition file_names (args : list val) : option (list string) := match rmapM as_text args with Ok l => Some l | Err _ => None end.
(** view_flowmap.py:10-11: the parameters of [view_flowfields]. *)
Definition flow_params : list string := ["labels"; "cutoff_label"; "cutoff"; "colour"; "vlim"; "pivot"; "streamlines"].
Definition call_flowfields (lib : list (bin * R) -> list call -> call -> option exn) (fuel : nat) (d : Utils.disk) (args : list val) (kw : kwargs) : option (list (figure (list (bin * R))) * option exn) :=
  match file_names args, maybe_text (get_or "cutoff_label" (VText "M") kw), maybe_number (get_or "cutoff" VNone kw), maybe_text (get_or "colour" VNone kw) with
  | Some files, Some clabel, Some cutoff, Some colour => Some (view_flowfields lib fuel d clabel cutoff colour (truthy (get_or "streamlines" (VBool false) kw)) (without flow_params kw) files)
  | _, _, _, _ => None
  end.
(** view_flowmap.py:222-224: the parameters of [view_flowmap_2d]. *)
Definition map_params : list string := ["label"; "type"; "cutoff_label"; "cutoff"].
Definition call_flowmap (lib : content -> list call -> call -> option exn) (fuel : nat) (d : Utils.disk) (args : list val) (kw : kwargs) : option (list (figure content) * option exn) :=
  match file_names args, maybe_text (get_or "type" (VText "heightmap") kw), maybe_text (get_or "label" (VText "M") kw), maybe_text (get_or "cutoff_label" (VText "M") kw), maybe_number (get_or "cutoff" VNone kw) with
  | Some files, Some (Some type), Some (Some label), Some clabel, Some cutoff => Some (view_flowmap_2d lib fuel d type label clabel cutoff (without map_params kw) files)
  | _, _, _, _, _ => None
  end.
(** The figures of a command line: arrows (strata.py:967-977) and maps (843-854, 904-917).  [None]: another command, or values which are not modelled. *)
Definition arrows_drawn (lib : list (bin * R) -> list call -> call -> option exn) (fuel : nat) (dashed : bool) (d : Utils.disk) (argv : list string) : option (list (figure (list (bin * R))) * option exn) :=
  match strata dashed d argv with
  | ACall fn args kw _ => if String.eqb fn "view_flowfields" then call_flowfields lib fuel d args kw else None
  | _ => None
  end.
Definition maps_drawn (lib : content -> list call -> call -> option exn) (fuel : nat) (dashed : bool) (d : Utils.disk) (argv : list string) : option (list (figure content) * option exn) :=
  match strata dashed d argv with
  | ACall fn args kw _ => if String.eqb fn "view_flowmap_2d" then call_flowmap lib fuel d args kw else None
  | _ => None
  end.
