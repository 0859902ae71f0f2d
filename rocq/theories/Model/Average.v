(** Model of /repo/strata/average.py: averaging files of data maps.

    A map is a list of bins with the seven fields; infinite or NaN values in files are not
    modelled (RuntimeErr, as in Model/Formats.v).  Printing is not modelled. *)
From Coq Require Import String.
From Verif.Base Require Import QcX Res Np Sums Bytes.
From Verif.Model Require Utils Bins SimpleAverage Flow Spreading Resample Sample.
From Verif.Model Require Import Bins Text Gmx Simple Formats.
Import Utils(disk, path, files, exec_ops, exec_op, prepare_ops, OpenTrunc, Append, lookup, fopts, find_groups_to_singles, exists_path).
Local Open Scope list_scope.

(** The information passed to [write]: 'origin' is missing after supersampling (157-160). *)
Record winfo := mkWinfo { w_shape : Z * Z; w_spacing : Qc * Qc; w_origin : option (Qc * Qc) }.

(** Dicts of columns and lists of bins.  Columns of different lengths (possible for broken simple files only) are not modelled. *)
Definition bins_of_dict (d : dict (list Qc)) : res (list bin) :=
  do x <- key d "X"; do y <- key d "Y"; do n <- key d "N"; do t <- key d "T"; do m <- key d "M"; do u <- key d "U"; do v <- key d "V";
  if forallb (fun c => Nat.eqb (length c) (length x)) [y; n; t; m; u; v]
  then Ok (map (fun p => mkBin (nth p x 0) (nth p y 0) (nth p n 0) (nth p t 0) (nth p m 0) (nth p u 0) (nth p v 0)) (seq 0 (length x)))
  else Err RuntimeErr.
Definition dict_of_bins (b : list bin) : dict (list Qc) :=
  [("X", map bX b); ("Y", map bY b); ("N", map bN b); ("T", map bT b); ("M", map bM b); ("U", map bU b); ("V", map bV b)]%string.

(** average.py:244-258 [cut_system]; the minimum of no values raises ValueError. *)
Definition cut_system (xlim ylim : option Qc * option Qc) (data : list bin) : res (list bin) :=
  let xs := map bX data in let ys := map bY data in
  do xmin <- match fst xlim with Some v => Ok v | None => of_option ValueErr (list_min xs) end;
  do xmax <- match snd xlim with Some v => Ok v | None => of_option ValueErr (list_max xs) end;
  do ymin <- match fst ylim with Some v => Ok v | None => of_option ValueErr (list_min ys) end;
  do ymax <- match snd ylim with Some v => Ok v | None => of_option ValueErr (list_max ys) end;
  Ok (filter (fun b => (qle xmin (bX b) && qle (bX b) xmax && qle ymin (bY b) && qle (bY b) ymax)%bool) data).

(** average.py:201-205: the new x coordinates of one map and its spacing; [None] if there is only one column (the
    spacing is then NaN).  A missing position raises TypeError (207-208). *)
Definition recentred_xs (p : list bin * option Qc) : res (option (list Qc * Qc)) :=
  let xs := map bX (fst p) in
  do origin <- of_option ValueErr (list_min xs);
  match snd p with
  | None => Err TypeErr
  | Some r =>
    match qdiff (unique xs) with
    | [] => Ok None
    | ds => let spacing := qmean ds in
            Ok (Some (map (fun x => (ZQ (qround ((x - origin) / spacing)) - ZQ (qround ((r - origin) / spacing))) * spacing + origin) xs, spacing))
    end
  end.
(** All values, or ValueErr. *)
Definition all_some {A} (l : list (option A)) : res (list A) := rmapM (of_option ValueErr) l.
Definition with_x (b : bin) (x : Qc) : bin := mkBin x (bY b) (bN b) (bT b) (bM b) (bU b) (bV b).
(** average.py:216-224: the bins inside the common extent, at their new positions. *)
Definition subset (xmin xmax : Qc) (xs : list Qc) (data : list bin) : list bin :=
  map (fun p => with_x (snd p) (fst p)) (filter (fun p => (qle xmin (fst p) && qle (fst p) xmax)%bool) (combine xs data)).
(** average.py:181-241 [recenter_maps].  Maps with different numbers of bins raise ValueError (a map of one bin is broadcast by
    numpy: not modelled).  Maps with one column give NaN and then no bins, and the minimum of no values raises ValueError (228).
    A map with one row has NaN as spacing along y: not modelled (RuntimeErr). *)
Definition recenter_maps (maps : list (list bin)) (values : list (option Qc)) : res (list (list bin) * winfo) :=
  if negb (Nat.eqb (length maps) (length values)) then Err IndexErr else
  match maps with
  | [] => Err IndexErr
  | m0 :: _ =>
    if negb (forallb (fun m => Nat.eqb (length m) (length m0)) maps) then Err ValueErr else
    do trans <- rmapM recentred_xs (combine maps values);
    do trans <- all_some trans;
    do mins <- rmapM (fun t => of_option ValueErr (list_min (fst t))) trans;
    do maxs <- rmapM (fun t => of_option ValueErr (list_max (fst t))) trans;
    do xmin <- of_option ValueErr (list_max mins); do xmax <- of_option ValueErr (list_min maxs);
    let out := map (fun p => subset xmin xmax (fst (fst p)) (snd p)) (combine trans maps) in
    let lastmap := last out [] in let dx := snd (last trans ([], 0)) in
    do ymin <- of_option ValueErr (list_min (map bY lastmap));
    match qdiff (unique (map bY lastmap)) with
    | [] => Err RuntimeErr
    | ds =>
      let nx := (qtrunc ((xmax - xmin) / dx) + 1)%Z in
      let num := Z.of_nat (length lastmap) in
      Ok (out, mkWinfo (nx, num / nx)%Z (dx, qmean ds) (Some (xmin, ymin)))
    end
  end.

(** Options of [average] (14-99), [None] for defaults; 'combine' as not negative numbers. *)
Record aopts := mkAopts { a_xlim : option Qc * option Qc; a_ylim : option Qc * option Qc; a_combine : option (nat * nat); a_recenter : string;
  a_super : option nat; a_floor : option Qc; a_cutoff : option Qc; a_bins : Z; a_radius : Qc; a_longest : bool }.
(** average.py:125-146: the position of one map; FlowData objects are made without information (126). *)
Definition recenter_value (o : aopts) (data : list bin) : res (option Qc) :=
  let edges := Spreading.get_spreading_edges bM data Flow.finfo0 (a_cutoff o) (Some (a_radius o)) (a_bins o) (a_longest o) (a_floor o) in
  if String.eqb (a_recenter o) "right" then do e <- edges; Ok (option_map snd e)
  else if String.eqb (a_recenter o) "left" then do e <- edges; Ok (option_map fst e)
  else if String.eqb (a_recenter o) "com" then do c <- Sample.sample_center_of_mass data; Ok (Some (fst c))
  else Err ValueErr.

(** average.py:109-122: the files of a group and which module reads them.  [read_from_files] reads one after the other. *)
Definition limited (o : aopts) : bool := negb (Sample.no_limit (a_xlim o) && Sample.no_limit (a_ylim o)).
Definition read_group (fuel : nat) (o : aopts) (group : list (option bytes)) : res (list (list bin * winfo * module)) :=
  rmapM (fun f =>
    do (d, i) <- read_data_file fuel f; do d <- finite_dict d; do i <- finite_info i; do b <- bins_of_dict d;
    do b <- (if limited o then cut_system (a_xlim o) (a_ylim o) b else Ok b);
    Ok (b, mkWinfo (g_shape i) (g_spacing i) (Some (g_origin i)), guess_read_module f)) group.
Definition module_eqb (a b : module) : bool := match a, b with GmxModule, GmxModule => true | SimpleModule, SimpleModule => true | _, _ => false end.
(** Both modules take [average_data] and [combine_bins] from simple/average.py. *)
Definition bins_info (i : winfo) : Bins.ginfo :=
  let o := match w_origin i with Some o => o | None => (0, 0) end in
  mkInfo (Z.to_nat (fst (w_shape i)), Z.to_nat (snd (w_shape i))) (w_spacing i) o (Z.to_nat (fst (w_shape i) * snd (w_shape i))).
Definition super_weights : list (string * string) := [("U", "M"); ("V", "M"); ("T", "N")]%string.
(** average.py:109-171 for one group: the data and information passed to [write]. *)
Definition average_group (fuel : nat) (o : aopts) (group : list (option bytes)) : res (list bin * winfo) :=
  do maps <- read_group fuel o group;
  match maps with
  | [] => Err AssertErr
  | (_, _, mod0) :: _ =>
    if negb (forallb (fun m => module_eqb (snd m) mod0) maps) then Err AssertErr else
    let data := map (fun m => fst (fst m)) maps in
    let info := snd (fst (last maps ([], mkWinfo (0, 0)%Z (0, 0) None, mod0))) in
    do (data, info) <- (if String.eqb (a_recenter o) "" then Ok (data, info)
                        else do values <- rmapM (recenter_value o) data; recenter_maps data values);
    do avg <- SimpleAverage.average_data SimpleAverage.atol_default SimpleAverage.rtol_default data;
    do avg <- of_option RuntimeErr avg;
    do avg <- match a_combine o with None => Ok avg | Some (nx, ny) => do c <- SimpleAverage.combine_bins avg (bins_info info) nx ny; Ok (fst c) end;
    match a_super o with
    | None => Ok (avg, info)
    | Some n =>
      do f <- Resample.supersample (Some n) super_weights (Sample.flow_of avg (Flow.mkFinfo (Some (w_shape info)) None (Some (w_spacing info)) None));
      Ok (map Sample.bin_of (Flow.rows (Flow.data f)), mkWinfo (w_shape info) (w_spacing info) None)
    end
  end.

(** average.py:173, write.py:14-55, gmx_flow_version_1/write.py:8-48 and utils.py:239-288: the path is prepared, then the data is
    selected, then the file is opened and 'origin' is looked up.  The disk afterwards and the exception, if any. *)
Definition write_map (d : disk) (p : path) (data : list bin) (i : winfo) : disk * option exn :=
  match prepare_ops d p with
  | Err e => (d, Some e)
  | Ok pre =>
    let d1 := exec_ops d pre in
    match gmx_write (dict_of_bins data) (mkGinfo (w_shape i) (w_spacing i) (match w_origin i with Some o => o | None => (0, 0) end)) with
    | Err e => (d1, Some e)
    | Ok b => match w_origin i with
              | None => (exec_op d1 (OpenTrunc p), Some KeyErr)
              | Some _ => (exec_ops d1 [OpenTrunc p; Append p (string_of b)], None)
              end
    end
  end.
Definition content (d : disk) (name : string) : option bytes := option_map bytes_of (lookup (files d) (os_path name)).
(** average.py:109-173: all groups. *)
Fixpoint average_groups (fuel : nat) (o : aopts) (d : disk) (groups : list (list string * string)) : disk * option exn :=
  match groups with
  | [] => (d, None)
  | (names, out) :: groups =>
    match average_group fuel o (map (content d) names) with
    | Err e => (d, Some e)
    | Ok (data, info) => match write_map d (os_path out) data info with
                         | (d', None) => average_groups fuel o d' groups
                         | (d', Some e) => (d', Some e)
                         end
    end
  end.
(** average.py:14-178 [average]; with [quiet] the progress bar finished at 178 does not exist. *)
Definition average (ffuel fuel : nat) (o : aopts) (quiet : bool) (d : disk) (base output : string) (group : Z) (rolling : bool) (fo : fopts) : disk * option exn :=
  match find_groups_to_singles ffuel (fun s => exists_path d (os_path s)) base output group rolling fo with
  | Err e => (d, Some e)
  | Ok groups => match average_groups fuel o d groups with
                 | (d', None) => (d', if quiet then Some UnboundErr else None)
                 | r => r
                 end
  end.
