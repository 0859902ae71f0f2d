(** Model of /repo/strata/contact_line_analysis.py: the runs over files, with their effects on the disk.  The progress bar, a PermissionError (151-154) and
    what is printed are not modelled. *)
From Coq Require Import String Ascii.
From Verif.Base Require Import QcX Res Np Bytes.
From Verif.Model Require Import Bins Flow Interface ContactLine GridAverage Edges Text Gmx Simple Table RealText SampleFiles.
From Verif.Model Require Utils Formats Average InterfaceFiles.
Import Utils(disk, exec_ops, prepare_ops, OpenTrunc, Append, exists_path, fopts, fname).
Import Formats(os_path, string_of, bytes_of).
Import InterfaceFiles(env, flow_file).
Local Open Scope list_scope.

(** Options for the edges: cutoff, cutoff_radius, cutoff_bins, floor, extract_area, extract_height, average, rolling, recenter, quiet. *)
Record edge_opts := mkEdgeOpts { eo_cutoff : option Qc; eo_radius : option Qc; eo_bins : Z; eo_floor : option Qc; eo_area : Qc * Qc; eo_height : Qc;
                                 eo_average : Z; eo_rolling : bool; eo_recenter : bool; eo_quiet : bool }.
(** contact_line_analysis.py:58-61, 158-161: the floor is the lower limit of y. *)
Definition interface_opts (o : edge_opts) : iopts := mkIopts (eo_cutoff o) (eo_radius o) (eo_bins o) false (eo_floor o, None).
Definition edge_pair := (((Qc * Qc) * flow) * ((Qc * Qc) * flow))%type.
(** contact_line_analysis.py:345-354: a file; FlowData is made without the information of the map (350), which this search does not need. *)
Definition frame_file (fuel : nat) (o : edge_opts) (d : disk) (fn : string) : res (edge_pair * (Qc * Qc)) :=
  do (b, fi) <- flow_file fuel (Average.content d fn);
  do cells <- get_contact_line_cells bM b finfo0 (interface_opts o) (eo_area o) (eo_height o);
  do f <- edge_frame (cells, fi);
  match f_spacing fi with Some s => Ok (f, s) | None => Err TypeErr end.
(** contact_line_analysis.py:297-320: a group; the spacing is that of its last file (347: there is always one, a group is not empty). *)
Definition group_edges (recenter : bool) (g : list (edge_pair * (Qc * Qc))) : res (flow * flow) := averaged_edges recenter (last (map snd g) (0, 0)) (map fst g).
(** contact_line_analysis.py:236-325 [get_averaged_contact_line_edges] for files. *)
Definition edges_of_files (fuel : nat) (o : edge_opts) (d : disk) (names : list string) : list (flow * flow) * option exn :=
  if eo_quiet o then ([], Some UnboundErr) else
  if (negb (eo_rolling o) && Z.eqb (eo_average o) 0)%bool then ([], Some ZeroDivErr) else
  let g := get_grouped_data (map (frame_file fuel o d) names) (eo_average o) (eo_rolling o) in
  run_items (group_edges (eo_recenter o)) (fst g) (snd g).
(** contact_line_analysis.py:14-73 [extract_contact_line_bins].  [write(next(fnout), data)] without the information of the map: the path is prepared (utils.py:239-288), then
    [write_data] is called without its third argument, which raises TypeError (gmx_flow_version_1/write.py:8-9).  The names of outputs have the numbers of [begin] onwards. *)
Definition extract_run (ffuel fuel : nat) (o : edge_opts) (fuse : bool) (d : disk) (base output : string) (fo : fopts) : disk * res unit :=
  let opts := Utils.pop_fileopts fo in
  match Utils.find_datamap_singles ffuel (fun s => exists_path d (os_path s)) base (Utils.f_begin opts) (Utils.f_end opts) (Utils.f_ext opts) with
  | Err x => (d, Err x)
  | Ok (names, _) =>
    match edges_of_files fuel o d names with
    | ([], None) => (d, Ok tt)
    | ([], Some e) => (d, Err e)
    | (x :: _, _) =>
      match (do s <- of_option TypeErr (f_spacing (info (fst x))); extract_one fuse s x) with
      | Err e => (d, Err e)
      | Ok _ =>
        match prepare_ops d (os_path (fname output (Utils.f_begin opts) (Utils.f_ext opts))) with
        | Err e => (d, Err e)
        | Ok ops => (exec_ops d ops, Err TypeErr)
        end
      end
    end
  end.
(** contact_line_analysis.py:467-494 [write_header]: the lines of the module header and those of the input.  The texts ([%r]) of the labels, the real path and the cutoff are
    arguments; 'dt' is never among the options (it is a parameter of the function, 91). *)
Record cltexts := mkCltexts { ct_labels : bytes; ct_base : bytes; ct_cutoff : bytes }.
Definition edge_header (e : env) (t : cltexts) (labels : list string) (o : edge_opts) (f : Utils.fileopts) : list bytes * list bytes :=
  (module_header (txt "Sample average of contact line data from a simulation") e,
   [txt "# Input:"; txt "#   Sample data labels: " ++ ct_labels t; txt "#   Average over # files: " ++ fmt_int (eo_average o); txt "#   Rolling average: " ++ txt (if eo_rolling o then "True" else "False");
    txt "#   File base path: " ++ ct_base t; txt "#   Begin, end: " ++ fmt_int (Utils.f_begin f) ++ txt ", " ++ end_text (Utils.f_end f); txt "#   Delta-t: 1.0";
    txt "#   Cut-off: " ++ ct_cutoff t; txt "#   Cut-off label: 'M'"; txt "# "; txt "# Time (ps) " ++ join sp (map bytes_of labels)]).
(** contact_line_analysis.py:214-230, for no labels: a line with the time and a space. *)
Definition edge_line (t : Qc) : bytes := fmt_fixed 3 t ++ sp ++ nl.
(** contact_line_analysis.py:90-232 [sample_contact_line_edges]: the header is written before the files are looked for.  With labels the first group ends the
    program: [std] (198) is not bound (see [Edges.sample_contact_line_edges]); without, lines are written as the groups are found. *)
Definition sample_run (ffuel fuel : nat) (e : env) (t : cltexts) (labels : list string) (o : edge_opts) (dt : Qc) (d : disk) (base save : string) (fo : fopts) : disk * res (list Qc) :=
  let opts := Utils.pop_fileopts fo in
  let (h1, h2) := edge_header e t labels o opts in
  match match output_of save with
        | None => Ok d
        | Some out => Utils.do_call d (os_path out, [string_of (text_lines h1); string_of (text_lines h2)])
        end with
  | Err x => (d, Err x)
  | Ok d1 =>
    match Utils.find_datamap_singles ffuel (fun s => exists_path d1 (os_path s)) base (Utils.f_begin opts) (Utils.f_end opts) (Utils.f_ext opts) with
    | Err x => (d1, Err x)
    | Ok (names, _) =>
      let edges := edges_of_files fuel o d1 names in
      let r := sample_contact_line_edges (List.length labels) (eo_rolling o) (eo_average o) dt edges in
      match labels, output_of save with
      | [], Some out => (exec_ops d1 (map (fun i => Append (os_path out) (string_of (edge_line (sample_time (eo_rolling o) (eo_average o) dt i)))) (seq 0 (List.length (fst edges)))), r)
      | _, _ => (d1, r)
      end
    end
  end.
