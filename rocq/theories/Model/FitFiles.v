(** Model of /repo/strata/spreading/fit.py over files. *)
From Coq Require Import String Reals.
From Verif.Base Require Import QcX QcR Res Bytes.
From Verif.Model Require Import SpreadingView PowerFit SpreadingFiles.
Import Utils(disk).
Local Open Scope list_scope.

(** fit.py:45-46 and 58-101 [get_fitting_parameters]: the parameters of each series, in order.  [fit_series] is a relation, see PowerFit.v. *)
Definition fitting_parameters (data : list (string * curve)) (lims : option (option Qc * option Qc)) (params : list (R * R)) : Prop :=
  Forall2 (fun s p => fit_series (snd s) lims (fst p) (snd p)) data params.
(** fit.py:104-136 [get_fitted_data]: pairs of parameters and series ([zip]); [show] is [' a=%.3f, k=%.3f' % (a, k)] (not modelled for real numbers). *)
Definition get_fitted_data (show : R * R -> string) (params : list (R * R)) (data : list (string * curve)) (out_lims : option (option Qc * option Qc)) : list (string * list (R * R)) :=
  map (fun p => ((fst (snd p) ++ show (fst p))%string, fitted_series (snd (snd p)) out_lims (fst (fst p)) (snd (fst p)))) (combine params data).
(** fit.py:11-55 [fit_spreading_data] without figure and output: [params] can be the result. *)
Definition fit_spreading_data (d : disk) (files : list string) (lims : option (option Qc * option Qc)) (params : list (R * R)) : Prop :=
  exists data, rmapM finite_series (fst (read_spreading_data d files)) = Ok data /\ fitting_parameters data lims params.
