(** Model of the files of /repo/strata/spreading/: what collect.py writes and how view.py and fit.py read it. *)
From Coq Require Import String Ascii.
From Verif.Base Require Import QcX Res Np Bytes.
From Verif.Model Require Utils Flow Average.
From Verif.Model Require Import Bins Text Gmx Simple Formats Table Spreading SpreadingView InterfaceFiles.
Import Utils(disk, files, fopts, exec_ops, Append, exists_path).
Local Open Scope list_scope.
Local Notation length := List.length.

(** ** collect.py *)
(** collect.py:332-370 [write_header]: the lines.  Date, version and the texts ([%r]) of the options are arguments. *)
Record sinfo := mkSinfo { s_date : bytes; s_version : bytes; s_base : bytes; s_begin : bytes; s_end : bytes; s_floor : bytes; s_dt : bytes; s_cutoff : bytes; s_radius : bytes; s_bins : bytes }.
Definition spreading_header (i : sinfo) : list bytes :=
  [txt "# Spreading radius of a droplet impacting a substrate"; txt "# "; txt "# Creation date: " ++ s_date i; txt "# Using module version: " ++ s_version i; txt "# ";
   txt "# Input:"; txt "#   File base path: " ++ s_base i; txt "#   Begin, end: " ++ s_begin i ++ txt ", " ++ s_end i; txt "#   Floor: " ++ s_floor i;
   txt "#   Delta-t: " ++ s_dt i; txt "#   Mass cut-off: " ++ s_cutoff i; txt "#   Radius cut-off: " ++ s_radius i; txt "#   Required # of bins: " ++ s_bins i; txt "# "].
(** collect.py:373-388 [output_impact_time]; [os.path.split] gives the file name. *)
Definition impact_lines (time : Qc) (path : string) : list bytes :=
  [txt "# Droplet impact:"; txt "#   Time: " ++ fmt_fixed 3 time ++ txt " ps"; txt "#   File: " ++ quoted (bytes_of (snd (split_slash path))); txt "# ";
   txt "# Time (ps) Radius (nm) Left (nm) Right (nm)"].
(** collect.py:391-396 [write_spreading]. *)
Definition row_numbers (r : row) : list Qc := [r_t r; r_r r; r_left r; r_right r].
Definition impact_text (time : Qc) (path : string) : bytes := flat_map (fun l => l ++ nl) (impact_lines time path).
Definition spread_line (r : row) : bytes := join sp (map (fmt_fixed 3) (row_numbers r)) ++ nl.

(** The options of [get_spreading_edges] (collect.py:115-116). *)
Record sopts := mkSopts { so_cutoff : option Qc; so_radius : Qc; so_bins : Z; so_floor : option Qc }.
(** collect.py:113-119: a file as a frame; the box is only asked for if there are edges. *)
Definition frame_of (fuel : nat) (o : sopts) (name : string) (f : option bytes) : res frame :=
  do (b, fi) <- flow_file fuel f;
  do e <- get_spreading_edges bM b fi (so_cutoff o) (Some (so_radius o)) (so_bins o) true (so_floor o);
  match e with
  | None => Ok (mkFrame name 0 None)
  | Some lr => do size <- of_option TypeErr (Flow.size fi); Ok (mkFrame name (fst size) (Some lr))
  end.
(** collect.py:113-148: the loop.  The disk afterwards, [write_spreading.impact], and the rows or the exception. *)
Fixpoint spreading_loop (fuel : nat) (o : sopts) (dt : Qc) (out : option string) (i : nat) (time : Qc) (p : pinfo) (impact : bool) (d : disk) (names : list string)
    : disk * bool * res (list row) :=
  match names with
  | [] => (d, impact, Ok [])
  | n :: names =>
    match frame_of fuel o n (Average.content d n) with
    | Err e => (d, impact, Err e)
    | Ok f =>
      match f_edges f with
      | None => spreading_loop fuel o dt out (S i) time p impact d names
      | Some (l, r) =>
        let p' := check_and_update p (f_box f) l r in
        let '(la, ra) := add_multipliers p' (f_box f) l r in
        let rw := mkRow time (qabs (Q2Qc (1 # 2) * (ra - la))) la ra in
        let d' := match out with
                  | None => d
                  | Some out => exec_ops d (map (fun t => Append (os_path out) (string_of t))
                                              ((if impact then [] else [impact_text (NQ i * dt) n]) ++ [spread_line rw]))
                  end in
        let '(d'', impact', rest) := spreading_loop fuel o dt out (S i) (time + dt) p' (impact || match out with Some _ => true | None => false end)%bool d' names in
        (d'', impact', rmap (cons rw) rest)
      end
    end
  end.
(** collect.py:19-153 [collect]: the header is written (with [prepare_path]) before the files are looked for.  The returned array has single
    precision (80-88). *)
Definition spreading_run (ffuel fuel : nat) (hdr : list bytes) (o : sopts) (dt t0 : Qc) (d : disk) (impact : bool) (base : string) (save : option string) (fo : fopts)
    : disk * bool * res (list (ext * ext)) :=
  match match save with None => Ok d | Some out => Utils.do_call d (os_path out, [string_of (flat_map (fun l => l ++ nl) hdr)]) end with
  | Err e => (d, impact, Err e)
  | Ok d =>
    let opts := Utils.pop_fileopts fo in
    match Utils.find_datamap_singles ffuel (fun s => exists_path d (os_path s)) base (Utils.f_begin opts) (Utils.f_end opts) (Utils.f_ext opts) with
    | Err e => (d, impact, Err e)
    | Ok (names, _) =>
      let '(d', impact', rows) := spreading_loop fuel o dt save 0 t0 init_periodic_info impact d names in
      (d', impact', rmap (map (fun r => (f32 (r_t r), f32 (r_r r)))) rows)
    end
  end.

(** ** view.py *)
(** [float(w)] of a word: a number, or a ValueError.  Exponents and other spellings of 'nan' and 'inf' are not modelled. *)
Definition float_word (w : bytes) : res ext :=
  match to_ext w with
  | NaN => if bytes_eqb (upper w) (txt "NAN") then Ok NaN else Err ValueErr
  | v => Ok v
  end.
(** A pandas Series of radii with times as index, and its name. *)
Record series := mkSeries { s_name : string; s_points : list (ext * ext) }.
Definition is_nan (v : ext) : bool := match v with NaN => true | _ => false end.
(** view.py:243-249 [get_series]: [dropna]. *)
Definition get_series (radii times : list ext) (name : string) (num : nat) : series :=
  mkSeries (name ++ "." ++ Utils.dec (N.of_nat num)) (filter (fun p => negb (is_nan (snd p))) (combine times radii)).
(** The columns of a table: [rows.T] of [k] words in each row. *)
Definition column (rows : list (list ext)) (j : nat) : list ext := map (fun r => nth j r NaN) rows.
(** [np.loadtxt(file, unpack=True, comments='#')]: rows of numbers; words which are no numbers and rows of another length are a ValueError. *)
Definition loadtxt (file : bytes) : res (list (list ext)) :=
  let rows := filter (fun ws => negb (Nat.eqb (length ws) 0)) (map split_line (flines file)) in
  do vals <- rmapM (rmapM float_word) rows;
  match vals with
  | [] => Ok []
  | r :: _ => if forallb (fun v => Nat.eqb (length v) (length r)) vals then Ok vals else Err ValueErr
  end.
(** view.py:184-192 [read_plain_file].  Axes of length one are removed from the table: no rows, or a single number, have no [data[0]] (IndexError); one
    row or one column have single numbers for [times] and [radii], of which no Series can be made (TypeError). *)
Definition read_plain_file (name : string) (file : bytes) : res (list series) :=
  do rows <- loadtxt file;
  match rows with
  | [] | [[_]] => Err IndexErr
  | [_] => Err TypeErr
  | r :: _ =>
    if Nat.eqb (length r) 1 then Err TypeErr
    else Ok (map (fun j => get_series (column rows j) (column rows 0) name j) (seq 1 (length r - 1)))
  end.
(** [s.split(sep)] for a text [sep]: [skip] characters of a found [sep] are left to pass, [part] is being read. *)
Fixpoint split_text (sep part : bytes) (skip : nat) (s : bytes) : list bytes :=
  match s with
  | [] => [part]
  | b :: s' =>
    match skip with
    | S k => split_text sep part k s'
    | O => if starts_with sep s then part :: split_text sep [] (length sep - 1) s' else split_text sep (part ++ [b]) 0 s'
    end
  end.
(** view.py:197-202 [split_graph_data]: the lines of each graph. *)
Definition target : bytes := txt "@target ".
Definition graphs_of (file : bytes) : list (list bytes) := map (fun g => tl (lines g)) (tl (split_text target [] 0 file)).
(** view.py:207-229: one graph: lines of numbers; an array of rows of different lengths, of no rows or of empty rows has no column 0
    (IndexError or ValueError). *)
Definition graph_rows (g : list bytes) : res (list (list ext)) :=
  do rows <- rmapM (fun l => rmapM float_word (words l)) (filter (fun l => negb (starts_with (txt "@") l || bytes_eqb l (txt "&"))%bool) g);
  match rows with
  | [] => Err IndexErr
  | r :: _ => if (negb (Nat.eqb (length r) 0) && forallb (fun v => Nat.eqb (length v) (length r)) rows)%bool then Ok rows else Err IndexErr
  end.
(** view.py:204-233 [get_series_data]; [num] is [num_graph]. *)
Fixpoint get_series_data (name : string) (num : nat) (gs : list (list bytes)) : res (list series) :=
  match gs with
  | [] => Ok []
  | g :: gs =>
    do rows <- graph_rows g;
    let k := (length (hd [] rows) - 1)%nat in
    do rest <- get_series_data name (num + k) gs;
    Ok (map (fun i => get_series (column rows (i + 1)) (column rows 0) name (num + i + 1)) (seq 0 k) ++ rest)
  end.
Definition read_xvg_file (name : string) (file : bytes) : res (list series) := get_series_data name 0 (graphs_of file).
(** view.py:181-256 [read_file]: what the first reader cannot read is given to the second. *)
Definition read_spreading_file (name : string) (file : option bytes) : res (list series) :=
  match file with
  | None => Err OSErr
  | Some f => match read_plain_file name f with Ok s => Ok s | Err _ => read_xvg_file name f end
  end.
(** view.py:170-266 [read_spreading_data]: the series, and the files a warning is printed for. *)
Fixpoint read_spreading_data (d : disk) (names : list string) : list series * list string :=
  match names with
  | [] => ([], [])
  | n :: names =>
    let (ss, ws) := read_spreading_data d names in
    match read_spreading_file n (Average.content d n) with
    | Ok s => (s ++ ss, ws)
    | Err _ => (ss, n :: ws)
    end
  end.

(** view.py:282-318 [write_header] of the combined data. *)
Definition combined_header (e : env) (names : list bytes) : list bytes :=
  [txt "# Spreading radius of a droplet impacting a substrate"; txt "# "; txt "# Created by module: " ++ e_module e; txt "# Creation date: " ++ e_date e;
   txt "# Using module version: " ++ e_version e; txt "# "; txt "# Working directory: " ++ quoted (e_cwd e); txt "# Input files:"]
  ++ map (fun n => txt "#   " ++ quoted n) names ++ [txt "# "; txt "# Time (ps) Radius (nm)"].
(** view.py:320-337 [write_data] (also fit.py:232-250): [shown] are the names with the texts of the series ([s.to_string()] of pandas, which is not modelled). *)
Definition comment_lines (names : list bytes) : list bytes :=
  txt "@with g0" :: map (fun p => txt "@    s" ++ fmt_int (Z.of_nat (fst p)) ++ txt " comment """ ++ snd p ++ txt """") (combine (seq 0 (length names)) names).
Fixpoint graphs_text (i : nat) (texts : list bytes) : bytes :=
  match texts with
  | [] => []
  | t :: texts =>
    txt "@target G0.S" ++ fmt_int (Z.of_nat i) ++ nl ++ txt "@type xy" ++ nl ++ t ++ nl ++ (match texts with [] => [] | _ => txt "&" ++ nl end) ++ graphs_text (S i) texts
  end.
Definition combined_text (header : list bytes) (shown : list (bytes * bytes)) : bytes :=
  flat_map (fun l => l ++ nl) (header ++ comment_lines (map fst shown)) ++ graphs_text 0 (map snd shown).
(** fit.py:194-230 [write_header]; the texts ([%r]) of the limits are arguments. *)
Definition fit_header (e : env) (lims : bytes * bytes) (out_lims : bytes * bytes) (names : list bytes) : list bytes :=
  [txt "# Fitted spreading radii of a droplet impacting a substrate"; txt "# "; txt "# Created by module: " ++ e_module e; txt "# Creation date: " ++ e_date e;
   txt "# Using module version: " ++ e_version e; txt "# "; txt "# Input:"; txt "#   Fit limits: " ++ fst lims ++ txt ", " ++ snd lims;
   txt "#   Draw limits: " ++ fst out_lims ++ txt ", " ++ snd out_lims; txt "# "; txt "# Working directory: " ++ quoted (e_cwd e);
   txt "# Input files and fitting parameter values (r = a*t^k):"]
  ++ map (fun n => txt "#   " ++ quoted n) names ++ [txt "# "; txt "# Time (ps) Radius (nm)"].

(** A series with numbers only, as name and curve; others are not modelled further. *)
Definition finite_series (s : series) : res (string * curve) :=
  do pts <- rmapM (fun p => do t <- finite (fst p); do r <- finite (snd p); Ok (t, r)) (s_points s); Ok (s_name s, pts).
(** view.py:68-97 with the names, which the scaled and synchronised series keep (a curve that is repeated keeps its name). *)
Definition combine_named (data : list (string * curve)) (sync : option Qc) (tau R : factor) : res (list (string * curve)) :=
  do out <- combine_spreading_data (map snd data) sync tau R;
  Ok (combine (map (fun k => bc_nth (map fst data) ""%string k) (seq 0 (length out))) out).
(** view.py:12-65 [view_spreading] without the figure; [save] is the argument 'save_xvg', [None] if it is not given (KeyError); an exception
    of the writer is printed, not raised.  [show] is [s.to_string()] of pandas.  The disk afterwards and the warnings. *)
Definition view_spreading (d : disk) (files : list string) (sync : option Qc) (tau R : factor) (save : option (option string)) (e : env) (show : curve -> bytes)
    : res (disk * list string) :=
  let (data, warned) := read_spreading_data d files in
  do named <- rmapM finite_series data;
  do combined <- combine_named named sync tau R;
  match save with
  | None => Err KeyErr
  | Some None => Ok (d, warned)
  | Some (Some out) =>
    if String.eqb out "" then Ok (d, warned)
    else
      let shown := map (fun p => (bytes_of (fst p), show (snd p))) combined in
      match Utils.do_call d (os_path out, [string_of (combined_text (combined_header e (map fst shown)) shown)]) with
      | Ok d' => Ok (d', warned)
      | Err _ => Ok (d, warned)
      end
  end.
