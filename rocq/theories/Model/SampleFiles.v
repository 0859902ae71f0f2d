(** Model of the runs over files of /repo/strata/interface/sample.py and /repo/strata/sample_average.py, with the tables they write, and of the
    table written by /repo/strata/interface/angle.py. *)
From Coq Require Import String Ascii Reals.
From Verif.Base Require Import QcX QcR Res Np Bytes.
From Verif.Model Require Utils Flow Average.
From Verif.Model Require Import Bins Text Gmx Simple Formats Table RealText InterfaceFiles.
From Verif.Model Require InterfaceSample Sample SampleAngle ContactAngle InterfaceAngle.
Import Utils(disk, fopts, exec_ops, Append, exists_path).
Local Open Scope list_scope.
Local Notation length := List.length.

Definition text_lines (ls : list bytes) : bytes := flat_map (fun l => l ++ nl) ls.
(** utils.py:421-441 [write_module_header]: the lines. *)
Definition module_header (title : bytes) (e : env) : list bytes :=
  [txt "# " ++ title; txt "# "; txt "# Created by module: " ++ e_module e; txt "# Creation date: " ++ e_date e; txt "# Using module version: " ++ e_version e; txt "# "].
(** The text ([%r]) of the last number: an integer or [np.inf]. *)
Definition end_text (b : Utils.bound) : bytes := match b with Utils.Upto z => fmt_int z | Utils.Inf => txt "inf" end.

(** sample.py:60-82 and sample_average.py:114-150: [for i, file in enumerate(files)].  What happens for a file: a row is collected and its
    text appended to the output, the file is left out, or the loop is left. *)
Inductive outcome (A B : Type) := Row (a : A) (t : bytes) | Skip | Stop (b : B).
Arguments Row {A B}. Arguments Skip {A B}. Arguments Stop {A B}.
(** The disk afterwards, the rows, and why the loop was left, if it was. *)
Fixpoint sampling_loop {A B} (step : nat -> option bytes -> outcome A B) (out : option string) (i : nat) (d : disk) (names : list string) : disk * (list A * option B) :=
  match names with
  | [] => (d, ([], None))
  | n :: names =>
    match step i (Average.content d n) with
    | Stop b => (d, ([], Some b))
    | Skip => sampling_loop step out (S i) d names
    | Row a t =>
      let d' := match out with None => d | Some out => exec_ops d [Append (os_path out) (string_of t)] end in
      let '(d'', (rows, stop)) := sampling_loop step out (S i) d' names in (d'', (a :: rows, stop))
    end
  end.
(** An empty output name (or None) is no output. *)
Definition output_of (save : string) : option string := if String.eqb save "" then None else Some save.

(** ** interface/sample.py *)
(** sample.py:153-176 [write_header]; begin and end are those of [pop_fileopts] (35).  The key 'dt' is never among the options (44), so Delta-t is
    always 1.0.  [base] is the text ([%r]) of the real path. *)
Definition sample_header (e : env) (base : bytes) (variable : string) (o : Utils.fileopts) : list bytes * list bytes :=
  (module_header (txt "Samples of input interface files") e,
   [txt "# Input:"; txt "#   File base path: " ++ base; txt "#   Variable: " ++ quoted (bytes_of variable);
    txt "#   Begin, end: " ++ fmt_int (Utils.f_begin o) ++ txt ", " ++ end_text (Utils.f_end o); txt "#   Delta-t: 1.0"; txt "# ";
    txt "# Time (ps) " ++ (if String.eqb variable "area" then txt "Area (nm^2)" else txt "Circumference (nm)")]).
(** sample.py:62-69 for the numbers in a file; columns of a single row are numbers, without [len] (TypeError, 109) and not for [np.diff] (ValueError, 137). *)
Definition sample_variable (variable : string) (c : (list ext * list ext) + (ext * ext)) : res R :=
  if String.eqb variable "area" then
    match c with
    | inr _ => Err TypeErr
    | inl (xs, ys) => do xs <- rmapM finite xs; do ys <- rmapM finite ys; rmap QR (InterfaceSample.get_area_of_interface xs ys)
    end
  else if String.eqb variable "length" then
    match c with
    | inr _ => Err ValueErr
    | inl (xs, ys) => do xs <- rmapM finite xs; do ys <- rmapM finite ys; Ok (InterfaceSample.calc_length (map QR xs) (map QR ys))
    end
  else Err ValueErr.
(** sample.py:60-79: one file; reading it is outside of the try clause. *)
Definition sample_line (t : Qc) (v : R) : bytes := fmt_fixed 3 t ++ sp ++ fmt_fixedR 3 v ++ nl.
Definition interface_step (variable : string) (dt : Qc) (i : nat) (file : option bytes) : outcome (Qc * R) exn :=
  match file with
  | None => Stop OSErr
  | Some f =>
    match unpack2 f with
    | Err e => Stop e
    | Ok c =>
      match sample_variable variable c with
      | Err TypeErr => Skip
      | Err e => Stop e
      | Ok v => Row (NQ i * dt, v) (sample_line (NQ i * dt) v)
      end
    end
  end.
(** sample.py:8-89 [sample_interfaces]: the files are looked for before the header is written.  A PermissionError (45-48), the progress bar and the
    figure are not modelled. *)
Definition sample_interfaces (ffuel : nat) (e : env) (base_text : bytes) (variable : string) (dt : Qc) (d : disk) (base : string) (save : string) (fo : fopts)
    : disk * res (list (Qc * R)) :=
  let opts := Utils.pop_fileopts {| Utils.o_begin := Utils.o_begin fo; Utils.o_end := Utils.o_end fo; Utils.o_ext := Some (Utils.dflt ".xvg"%string (Utils.o_ext fo)); Utils.o_outext := Utils.o_outext fo |} in
  match Utils.find_datamap_singles ffuel (fun s => exists_path d (os_path s)) base (Utils.f_begin opts) (Utils.f_end opts) (Utils.f_ext opts) with
  | Err x => (d, Err x)
  | Ok (names, _) =>
    let (h1, h2) := sample_header e base_text variable opts in
    match match output_of save with None => Ok d | Some out => Utils.do_call d (os_path out, [string_of (text_lines h1); string_of (text_lines h2)]) end with
    | Err x => (d, Err x)
    | Ok d1 =>
      let '(d2, (rows, stop)) := sampling_loop (interface_step variable dt) (output_of save) 0 d1 names in
      (d2, match stop with None => Ok rows | Some x => Err x end)
    end
  end.

(** ** sample_average.py *)
(** sample_average.py:122-125,176-187: what a label stands for. *)
Definition label_of (l : string) : Sample.label :=
  (if l =? "slip_length" then Sample.LSlip else if l =? "inertial_energy" then Sample.LInertial else if l =? "visc_diss" then Sample.LVisc
   else if l =? "flow_angle" then Sample.LAngle
   else if l =? "X" then Sample.LField bX else if l =? "Y" then Sample.LField bY else if l =? "U" then Sample.LField bU else if l =? "V" then Sample.LField bV
   else if l =? "M" then Sample.LField bM else if l =? "N" then Sample.LField bN else if l =? "T" then Sample.LField bT else Sample.LUnknown)%string.
(** sample_average.py:189-194: the cutoff label names a field; None is no cutoff. *)
Definition cutoff_label (l : option string) : Sample.clabel :=
  match l with
  | None => Sample.CNone
  | Some l =>
    (if l =? "X" then Sample.CField bX else if l =? "Y" then Sample.CField bY else if l =? "U" then Sample.CField bU else if l =? "V" then Sample.CField bV
     else if l =? "M" then Sample.CField bM else if l =? "N" then Sample.CField bN else if l =? "T" then Sample.CField bT else Sample.CUnknown)%string
  end.
(** A sampled value as number, and the standard deviation if there is one ([None] is not a number). *)
Definition real_of (v : ext) : option R := match v with Fin q => Some (QR q) | _ => None end.
Definition value_of (s : Sample.sampled) : option R :=
  match s with Sample.Number v _ => real_of v | Sample.AngleOf u v => Some (ContactAngle.degrees (ContactAngle.atan2 (QR v) (QR u))) end.
Definition std_of (s : Sample.sampled) : option (option R) :=
  match s with Sample.Number _ (Some var) => Some (option_map sqrt (real_of var)) | _ => None end.
(** sample_average.py:138-150: a line; a standard deviation of None cannot be formatted and is left out (146-147). *)
Definition average_line (t : Qc) (vs : list Sample.sampled) : bytes :=
  fmt_fixed 3 t ++ flat_map (fun s => sp ++ fmt_g_opt (value_of s) ++ match std_of s with Some x => sp ++ fmt_g_opt x | None => [] end) vs ++ nl.
(** Options of [sample_average_files]. *)
Record avopts := mkAv { av_sum : bool; av_dt : Qc; av_cutoff_label : option string; av_cutoff : option Qc; av_viscosity : Qc; av_floor : Qc;
                        av_xlim : option Qc * option Qc; av_ylim : option Qc * option Qc }.
(** sample_average.py:114-150: one file.  [Stop (Some e)] is an exception, [Stop None] a printed one after which None is returned. *)
Definition average_step (fuel : nat) (labels : list string) (o : avopts) (i : nat) (file : option bytes) : outcome (list Sample.sampled) (option exn) :=
  match (do (b, fi) <- flow_file fuel file; Sample.limited (av_xlim o) (av_ylim o) b fi) with
  | Err e => Stop (Some e)
  | Ok (b, fi) =>
    match Sample.sample_labels b fi (map label_of labels) (av_cutoff o) (cutoff_label (av_cutoff_label o)) (av_sum o) (av_viscosity o) (av_floor o) with
    | Err _ => Stop None
    | Ok vs => Row vs (average_line (NQ i * av_dt o) vs)
    end
  end.
(** sample_average.py:247-275 [write_header]: the lines of the module header and those of the input, which cannot be made without labels
    ([labels[0]], IndexError).  The texts ([%r]) of the labels, the cutoff and its label and of the real path are arguments; the key 'dt' is never among the options. *)
Record avtexts := mkAvtexts { at_labels : bytes; at_base : bytes; at_cutoff : bytes; at_cutoff_label : bytes }.
Definition average_header (e : env) (t : avtexts) (labels : list string) (o : Utils.fileopts) : list bytes * option (list bytes) :=
  (module_header (txt "Sample average of data from a simulation") e,
   match labels with
   | [] => None
   | l :: rest =>
     Some [txt "# Input:"; txt "#   Sample data labels: " ++ at_labels t; txt "#   File base path: " ++ at_base t;
           txt "#   Begin, end: " ++ fmt_int (Utils.f_begin o) ++ txt ", " ++ end_text (Utils.f_end o); txt "#   Delta-t: 1.0"; txt "#   Cut-off: " ++ at_cutoff t;
           txt "#   Cut-off label: " ++ at_cutoff_label t; txt "# ";
           txt "# Time (ps) " ++ match rest with [] => bytes_of l ++ txt " [std]" | _ => join sp (map bytes_of labels) end]
   end).
(** sample_average.py:13-170 [sample_average_files]: the times and, for each label, the values; [None] is returned if a file could not be sampled.
    A PermissionError (100-103), the progress bar and what is printed are not modelled. *)
Definition transpose_samples (labels : list string) (rows : list (list Sample.sampled)) : list (list Sample.sampled) :=
  map (fun j => map (fun v => nth j v (Sample.AngleOf 0 0)) rows) (seq 0 (length labels)).
Definition sample_average_run (ffuel fuel : nat) (e : env) (t : avtexts) (labels : list string) (o : avopts) (d : disk) (base : string) (save : string) (fo : fopts)
    : disk * res (option (list Qc * list (list Sample.sampled))) :=
  let opts := Utils.pop_fileopts fo in
  match Utils.find_datamap_singles ffuel (fun s => exists_path d (os_path s)) base (Utils.f_begin opts) (Utils.f_end opts) (Utils.f_ext opts) with
  | Err x => (d, Err x)
  | Ok (names, _) =>
    let (h1, h2) := average_header e t labels opts in
    let written := match output_of save with
      | None => (d, None)
      | Some out =>
        match Utils.do_call d (os_path out, string_of (text_lines h1) :: match h2 with Some h2 => [string_of (text_lines h2)] | None => [] end) with
        | Err x => (d, Some x)
        | Ok d1 => (d1, match h2 with Some _ => None | None => Some IndexErr end)
        end
      end in
    match written with
    | (d1, Some x) => (d1, Err x)
    | (d1, None) =>
      let '(d2, (rows, stop)) := sampling_loop (average_step fuel labels o) (output_of save) 0 d1 names in
      (d2, match stop with
           | Some (Some x) => Err x
           | Some None => Ok None
           | None => match labels with
                     | [] => Err IndexErr
                     | _ => Ok (Some (map (fun i => NQ i * av_dt o) (seq 0 (length rows)), transpose_samples labels rows))
                     end
           end)
    end
  end.

(** ** interface/angle.py *)
(** angle.py:127-189 [write_angle_data]: the table in '%.3f' with the legend; 'delta_t' is never among the options (95-96), so it is always 1.0.
    [height] is the text ([%r]) of the height.  [np.array(...).T] of columns of equal lengths (others are not modelled). *)
Definition angle_header (e : env) (base : bytes) (height : bytes) (o : Utils.fileopts) (c : InterfaceAngle.found) : list bytes :=
  module_header (txt "Measured contact angles of system") e ++
  [txt "# Input:"; txt "#   File base path: " ++ base; txt "#   Begin, end: " ++ fmt_int (Utils.f_begin o) ++ txt ", " ++ end_text (Utils.f_end o);
   txt "#   Measured at height: " ++ height; txt "#   Delta-t: 1.0"; txt "#   Interface options: See original files."; txt "# ";
   txt (InterfaceAngle.table_legend c)].
Definition row_at (cols : list (list (option R))) (i : nat) : list (option R) := map (fun c => nth i c None) cols.
Definition angle_table (times : list Qc) (c : InterfaceAngle.found) : list (list (option R)) :=
  map (row_at (InterfaceAngle.table_columns times c)) (seq 0 (length times)).
Definition savetxt_opt (header : list bytes) (rows : list (list (option R))) : bytes :=
  text_lines header ++ flat_map (fun r => join sp (map (fmt_fixed_opt 3) r) ++ nl) rows.
(** angle.py:8-106 with the output: it is written when all files have been used. *)
Definition angle_run (ffuel : nat) (e : env) (base_text height_text : bytes) (d : disk) (base : string) (want : bool) (height : option Qc) (dt : Qc) (save : string) (fo : fopts)
    : disk * res (list Qc * InterfaceAngle.found) :=
  let opts := Utils.pop_fileopts {| Utils.o_begin := Utils.o_begin fo; Utils.o_end := Utils.o_end fo; Utils.o_ext := Some (Utils.dflt ".xvg"%string (Utils.o_ext fo)); Utils.o_outext := Utils.o_outext fo |} in
  match InterfaceAngle.interface_contact_angle ffuel d base want height dt fo with
  | Err x => (d, Err x)
  | Ok (times, c) =>
    match output_of save with
    | None => (d, Ok (times, c))
    | Some out =>
      match Utils.do_call d (os_path out, [string_of (savetxt_opt (angle_header e base_text height_text opts c) (angle_table times c))]) with
      | Err x => (d, Err x)
      | Ok d1 => (d1, Ok (times, c))
      end
    end
  end.
