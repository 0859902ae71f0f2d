(** Model of runs of /repo/strata/spreading/fit.py with the file and the figure. *)
From Coq Require Import String Ascii Reals.
From Verif.Base Require Import QcX QcR Res Np Bytes.
From Verif.Model Require Import Click CurveFigures.
From Verif.Model Require Utils Formats SpreadingView SpreadingFiles FitFiles InterfaceFiles.
Import Utils(disk).
Local Open Scope string_scope.
Local Open Scope list_scope.

(** A pair of bounds, each of which may be None, as both are by default (12-13); [None]: a value without items, like None (other sequences are not modelled). *)
Definition limits := option (option Qc * option Qc).
(** fit.py:180-250 [write_fitting_data] (with [prepare_path]).  The file is opened before the header is put together, in which [lims[0]] of a value without items raises TypeError (209-217); the path ''
    cannot be opened.  [repr] is [repr] of a limit and [show] [s.to_string()] of pandas, which are not modelled. *)
Definition write_fits (d : disk) (out : string) (fits : list (string * list (R * R))) (lims out_lims : limits) (e : InterfaceFiles.env) (repr : option Qc -> bytes)
    (show : list (R * R) -> bytes) : disk * option exn :=
  if String.eqb out "" then (d, Some OSErr)
  else
    let shown := map (fun p => (Formats.bytes_of (fst p), show (snd p))) fits in
    let (chunks, x) := match lims, out_lims with
      | Some l, Some o => ([Formats.string_of (SpreadingFiles.combined_text (SpreadingFiles.fit_header e (repr (fst l), repr (snd l)) (repr (fst o), repr (snd o)) (map fst shown)) shown)], None)
      | _, _ => ([], Some TypeErr)
      end in
    match Utils.do_call d (Formats.os_path out, chunks) with Ok d' => (d', x) | Err x => (d, Some x) end.
(** fit.py:11-55 [fit_spreading_data]; [params] are the parameters found (46, see [FitFiles.fit_spreading_data]); [kw]: the other keywords.  The disk, the figure and the result. *)
Definition fit_run (lib : library) (d : disk) (inputs : list string) (lims out_lims : limits) (save : option string) (e : InterfaceFiles.env) (repr : option Qc -> bytes)
    (show : list (R * R) -> bytes) (params : list (R * R)) (kw : kwargs) : disk * option figure * res (list (R * R)) :=
  match rmapM SpreadingFiles.finite_series (fst (SpreadingFiles.read_spreading_data d inputs)) with
  | Err x => (d, None, Err x)
  | Ok data =>
    let (d', x) := match save with None => (d, None) | Some out => write_fits d out (FitFiles.get_fitted_data fit_text params data out_lims) lims out_lims e repr show end in
    match x with
    | Some x => (d', None, Err x)
    | None => let (f, x) := fit_figure lib data out_lims params kw in (d', f, match x with Some x => Err x | None => Ok params end)
    end
  end.
