(** Model of the files of /repo/strata/interface/collect.py, and of how angle.py, sample.py and view.py read them. *)
From Coq Require Import String Ascii.
From Verif.Base Require Import QcX Res Np Bytes.
From Verif.Model Require Utils Bins Flow Interface Spreading Collect Average.
From Verif.Model Require Import Bins Text Gmx Simple Formats Table.
Import Utils(disk, path, files, exec_ops, prepare_ops, OpenTrunc, Append, lookup, fopts, exists_path, find_singles_to_singles, pop_fileopts).
Local Open Scope list_scope.

(** collect.py:323-364 [get_header]: the lines.  The date, version, working directory, file names and the texts of the options
    are arguments; [opts] is [None] if one of the options is missing (KeyError, 355). *)
Record env := mkEnv { e_module : bytes; e_date : bytes; e_version : bytes; e_cwd : bytes }.
Definition opt_texts := option (bytes * bytes * bytes * bytes).
Definition quoted (s : bytes) : bytes := txt "'" ++ s ++ txt "'".
Definition interface_header (e : env) (fngroup : list bytes) (opts : opt_texts) : list bytes :=
  [txt "# Interface coordinates of a droplet"; txt "# "; txt "# Created by module: " ++ e_module e; txt "# Creation date: " ++ e_date e;
   txt "# Using module version: " ++ e_version e; txt "# "; txt "# Working directory: " ++ quoted (e_cwd e); txt "# Input files:"]
  ++ map (fun n => txt "#   " ++ quoted n) fngroup ++ [txt "# "]
  ++ match opts with
     | Some (r, c, rad, b) => [txt "# Input options:"; txt "#   Recenter: " ++ r; txt "#   Mass cut-off: " ++ c; txt "#   Radius cut-off: " ++ rad;
                               txt "#   Required # of bins: " ++ b; txt "# "]
     | None => [txt "# Input options: See original files."; txt "# "]
     end
  ++ [txt "# x (nm) y (nm)"].
(** collect.py:367-369. *)
Definition interface_text (header : list bytes) (a : list (Qc * Qc)) : bytes := savetxt header (map (fun p => [fst p; snd p]) a).

(** collect.py:63-64 and flow.py:48-51: a file as records and information of the FlowData object. *)
Definition flow_file (fuel : nat) (f : option bytes) : res (list bin * Flow.finfo) :=
  do (d, i) <- read_data_file fuel f; do d <- finite_dict d; do i <- finite_info i; do b <- Average.bins_of_dict d;
  Ok (b, Flow.mkFinfo (Some (g_shape i)) (Some (g_origin i)) (Some (g_spacing i)) (Some (fst (g_shape i) * snd (g_shape i))%Z)).

(** collect.py:62-73: the loop; [hdr] gives the header lines for an output.  The disk afterwards and the exception, if any. *)
Fixpoint collect_loop (fuel : nat) (hdr : string -> list bytes) (cutoff radius : option Qc) (nb : Z) (lims : option Qc * option Qc) (o : Collect.recentre)
    (old : option (list (option Spreading.pinfo) * Collect.yindex)) (d : disk) (pairs : list (string * string)) : disk * option exn :=
  match pairs with
  | [] => (d, None)
  | (fn, out) :: pairs =>
    match (do (b, fi) <- flow_file fuel (Average.content d fn); Collect.get_interface_coordinates bM b fi cutoff radius nb lims old o) with
    | Err e => (d, Some e)
    | Ok (a, st) =>
      match Utils.do_call d (os_path out, [string_of (interface_text (hdr out) a)]) with
      | Err e => (d, Some e)
      | Ok d' => collect_loop fuel hdr cutoff radius nb lims o (Some st) d' pairs
      end
    end
  end.
(** collect.py:16-75 [collect_interfaces]; the default extension of the output is '.xvg' (46). *)
Definition collect_files (ffuel fuel : nat) (hdr : string -> list bytes) (cutoff radius : option Qc) (nb : Z) (lims : option Qc * option Qc) (o : Collect.recentre)
    (d : disk) (base output : string) (fo : fopts) : disk * option exn :=
  let opts := pop_fileopts {| Utils.o_begin := Utils.o_begin fo; Utils.o_end := Utils.o_end fo; Utils.o_ext := Utils.o_ext fo;
                              Utils.o_outext := Some (Utils.dflt ".xvg"%string (Utils.o_outext fo)) |} in
  match find_singles_to_singles ffuel (fun s => exists_path d (os_path s)) base output
          {| Utils.o_begin := Some (Utils.f_begin opts); Utils.o_end := Some (Utils.f_end opts); Utils.o_ext := Some (Utils.f_ext opts); Utils.o_outext := Some (Utils.f_outext opts) |} with
  | Err e => (d, Some e)
  | Ok pairs => collect_loop fuel hdr cutoff radius nb lims o None d pairs
  end.
(** sample.py:38-40,61, angle.py:52-56,72: the files at a base, read one after the other; the default extension is '.xvg'. *)
Definition read_interfaces (ffuel : nat) (d : disk) (base : string) (fo : fopts) : res (list (res (list Qc * list Qc))) :=
  do (names, _) <- Utils.find_datamap_singles ffuel (fun s => exists_path d (os_path s)) base (Utils.dflt 1%Z (Utils.o_begin fo)) (Utils.dflt Utils.Inf (Utils.o_end fo))
      (Utils.dflt ".xvg"%string (Utils.o_ext fo));
  Ok (map (fun n => read_columns (Average.content d n)) names).
