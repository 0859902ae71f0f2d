(** Model of /repo/strata/contact_line_analysis.py: contact line edges of many
    frames, averaged, moved and recombined.

    Maps have the fields of [Sample.fields].  The finding of the cells in a
    frame (349-351) is [ContactLine.get_contact_line_cells].  Progress bars and
    the paths of output files are not modelled. *)
From Coq Require Import String.
From Verif.Base Require Import QcX Res Np Sort Sums.
From Verif.Model Require Import Bins Flow GridAverage ContactLine Sample.
Local Open Scope list_scope.

(** contact_line_analysis.py:329-357 [get_grouped_data].  One element stands for
    what is appended to [left] and [right] for a frame, which are always of the same length; a frame
    which raises is [Err].  The result are the lists which are yielded, as they are when the
    consumer (285-306) uses them, and the exception which ends the generator.  [average] is any int. *)
Fixpoint group {A} (average : Z) (rolling : bool) (frames : list (res A)) (held : list A) : list (list A) * option exn :=
  match frames with
  | [] => ([], None)
  | Err e :: _ => ([], Some e)
  | Ok a :: rest =>
    let held := held ++ [a] in
    if Z.eqb (Z.of_nat (List.length held)) average then
      let r := group average rolling rest (if rolling then tl held else []) in
      (held :: fst r, snd r)
    else group average rolling rest held
  end.
Definition get_grouped_data {A} (frames : list (res A)) (average : Z) (rolling : bool) := group average rolling frames [].

(** contact_line_analysis.py:436-447 [get_cut_shape]: [ys[nx]] past the end raises
    IndexError, so does [ys[0]] without data.  The upper limit (446) is half of dx. *)
Fixpoint same_row (y0 dx dy : Qc) (ys : list Qc) : res nat :=
  match ys with
  | [] => Err IndexErr
  | y :: ys => if (qle (y0 - dy / ZQ 2) y && qlt y (y0 + dx / ZQ 2))%bool
               then rmap S (same_row y0 dx dy ys) else Ok 0%nat
  end.
Definition get_cut_shape (dx dy : Qc) (ys : list Qc) : res (nat * nat) :=
  match ys with
  | [] => Err IndexErr
  | y0 :: rest => do k <- same_row y0 dx dy rest; Ok (S k, (List.length ys / S k)%nat)
  end.
(** contact_line_analysis.py:429-464 [add_adjusted_flow]; unpacking unset spacings raises TypeError. *)
Definition add_adjusted_flow (cells : list bin) (d : side) (fi : finfo) : res ((Qc * Qc) * flow) :=
  match f_spacing fi with
  | None => Err TypeErr
  | Some (dx, dy) =>
    do ac <- adjust_cell_coordinates cells d;
    do t <- sort_table (mkTable fields (map row_of (snd ac)));
    do s <- get_cut_shape dx dy (map (col 1) (rows t));
    Ok (fst ac, mkFlow t (mkFinfo (Some (Z.of_nat (fst s), Z.of_nat (snd s))) (Some (fst ac)) (Some (dx, dy))
                                  (Some (Z.of_nat (fst s * snd s)))))
  end.

(** contact_line_analysis.py:257-260 [get_coord_on_grid]. *)
Definition coord_on_grid (x dx : Qc) : Qc := (ZQ (qfloor (x / dx)) + 1 / ZQ 2) * dx.
(** [flow.data['X'] += x] and for Y: fields 0 and 1. *)
Definition move (x y : Qc) (f : flow) : flow :=
  mkFlow (mkTable (labels (data f)) (map (fun r => set_col 1 (col 1 r + y) (set_col 0 (col 0 r + x) r)) (rows (data f)))) (info f).
(** contact_line_analysis.py:303-316: one edge of a group of frames: the mean position and the averaged map. *)
Definition edge_weights : list (string * string) := [("U", "M"); ("V", "M"); ("T", "N")]%string.
Definition average_edge (frames : list ((Qc * Qc) * flow)) : res (Qc * flow) :=
  do f <- average_flow_data (map snd frames) edge_weights true;
  Ok (qmean (map (fun a => fst (fst a)) frames), f).
(** contact_line_analysis.py:242-255 [adjust_coordinates]. *)
Definition edge_positions (recenter : bool) (xl xr : Qc) : Qc * Qc :=
  if recenter then let xdiff := 1 / ZQ 2 * (xr - xl) in (- xdiff, xdiff) else (xl, xr).
(** contact_line_analysis.py:302-320, for one group; [spacing] is that of the last frame of the group. *)
Definition averaged_edges (recenter : bool) (spacing : Qc * Qc) (frames : list (((Qc * Qc) * flow) * ((Qc * Qc) * flow))) : res (flow * flow) :=
  do l <- average_edge (map fst frames);
  do r <- average_edge (map snd frames);
  let p := edge_positions recenter (fst l) (fst r) in
  let yadj := coord_on_grid 0 (snd spacing) in
  Ok (move (coord_on_grid (fst p) (fst spacing)) yadj (snd l), move (coord_on_grid (snd p) (fst spacing)) yadj (snd r)).

(** contact_line_analysis.py:76-87 [fuse_edges]; no data raises ValueError. *)
Definition fuse_edges (dx : Qc) (edges : flow * flow) : res (flow * flow) :=
  do lmax <- of_option ValueErr (list_max (map (col 0) (rows (data (fst edges)))));
  do rmin <- of_option ValueErr (list_min (map (col 0) (rows (data (snd edges)))));
  Ok (move (- (lmax + 1 / ZQ 2 * dx)) 0 (fst edges), move (- (rmin - 1 / ZQ 2 * dx)) 0 (snd edges)).

(** contact_line_analysis.py:363-407 [merge_data].  366-368: fields with a weight (field numbers as in [fields]):
    U and V by M, T by N; all other fields, also X and Y, have none. *)
Definition weight_of (k : nat) : option nat :=
  match k with 2%nat | 3%nat => Some 4%nat | 6%nat => Some 5%nat | _ => None end.
(** 378-401: the value of field k; [g] is the value of the empty grid. *)
Definition merge_value (k : nat) (g : Qc) (l r : record) : Qc :=
  let vl := col k l in let vr := col k r in
  if (negb (qeq vl 0) && negb (qeq vr 0))%bool then
    match weight_of k with
    | Some w => let total := col w l + col w r in
                if negb (qeq total 0) then (col w l * vl + col w r * vr) / total else g
    | None => 1 / ZQ 2 * (vl + vr)
    end
  else if negb (qeq vl 0) then vl else if negb (qeq vr 0) then vr else g.
Definition merge_row (dx dy : Qc) (g l r : record) : record :=
  let row := map (fun k => merge_value k (col k g) l r) (seq 0 (List.length g)) in
  set_col 1 (col 1 row - 1 / ZQ 2 * dy) (set_col 0 (col 0 row - 1 / ZQ 2 * dx) row).        (* 403-406 *)
(** 408: [grid.sort(order=['X', 'Y'])] on the two-dimensional array sorts every row of the grid. *)
Definition row_key (r : record) : list Qc := col 0 r :: col 1 r :: r.
Definition sort_rows (ny nx : nat) (rows : list record) : list record :=
  flat_map (fun j => isort (fun a b => lexle (row_key a) (row_key b)) (map (fun i => at_ (j * nx + i) rows) (seq 0 nx))) (seq 0 ny).
(** contact_line_analysis.py:360-426 [combine_flow_data]. *)
Definition combine_flow_data (spacing : Qc * Qc) (edges : flow * flow) : res flow :=
  let dx := fst spacing in let dy := snd spacing in
  let l := rows (data (fst edges)) in let r := rows (data (snd edges)) in
  do g <- get_combined_grid 0 1 (List.length fields) dx dy [l; r];
  do sl <- map_shape (fst edges);
  do l' <- transfer_data 0 1 dx dy g l (fst sl) (snd sl);
  do sr <- map_shape (snd edges);
  do r' <- transfer_data 0 1 dx dy g r (fst sr) (snd sr);
  let merged := map (fun p => merge_row dx dy (at_ p (g_rows g)) (at_ p l') (at_ p r')) (seq 0 (g_ny g * g_nx g)) in
  Ok (mkFlow (mkTable fields (sort_rows (g_ny g) (g_nx g) merged))
             (mkFinfo (Some (Z.of_nat (g_nx g), Z.of_nat (g_ny g))) None (Some (dx, dy)) None)).

(** A frame: the cells of the left and right edge, and the information of the map. *)
Definition edge_frame (f : (list bin * list bin) * finfo) : res (((Qc * Qc) * flow) * ((Qc * Qc) * flow)) :=
  do l <- add_adjusted_flow (fst (fst f)) SLeft (snd f);
  do r <- add_adjusted_flow (snd (fst f)) SRight (snd f);
  Ok (l, r).

(** contact_line_analysis.py:236-325 [get_averaged_contact_line_edges] as a generator: the items until an exception. With
    quiet=True the name [progress] (282) is not bound: UnboundLocalError before the first item; without, the
    length of the progress bar (267-270) divides by [average] if not rolling. *)
Fixpoint run_items {A B} (f : A -> res B) (items : list A) (final : option exn) : list B * option exn :=
  match items with
  | [] => ([], final)
  | a :: items => match f a with
                  | Ok b => let r := run_items f items final in (b :: fst r, snd r)
                  | Err e => ([], Some e)
                  end
  end.
Definition get_averaged_contact_line_edges (quiet : bool) (frames : list (res ((list bin * list bin) * finfo))) (average : Z) (rolling recenter : bool)
    (spacing : Qc * Qc) : list (flow * flow) * option exn :=
  if quiet then ([], Some UnboundErr) else
  if (negb rolling && Z.eqb average 0)%bool then ([], Some ZeroDivErr) else
  let g := get_grouped_data (map (fun f => do x <- f; edge_frame x) frames) average rolling in
  run_items (averaged_edges recenter spacing) (fst g) (snd g).

(** contact_line_analysis.py:65-72, the consumer in [extract_contact_line_bins]: the maps which are
    computed for output.  [write(next(fnout), data)] without the information raises TypeError
    (gmx_flow_version_1/write.py has a positional argument [info]), so no file is ever written. *)
Definition extract_one (fuse : bool) (spacing : Qc * Qc) (edges : flow * flow) : res flow :=
  do e <- (if fuse then fuse_edges (fst spacing) edges else Ok edges);
  combine_flow_data spacing e.
Definition extract_contact_line_bins (fuse : bool) (spacing : Qc * Qc) (edges : list (flow * flow) * option exn) : res unit :=
  match edges with
  | ([], None) => Ok tt
  | ([], Some e) => Err e
  | (x :: _, _) => do _ <- extract_one fuse spacing x; Err TypeErr
  end.

(** contact_line_analysis.py:172-232, the loop of [sample_contact_line_edges]: [std] (198) is never bound: the NameError,
    like any other exception in the sampling, is caught and ends the program (200-204).
    Without labels there is nothing to sample.  The result are the times (207-212). *)
Definition sample_time (rolling : bool) (average : Z) (dt : Qc) (i : nat) : Qc :=
  if rolling then (ZQ (qfloor (ZQ average / ZQ 2)) + NQ i) * dt
  else (ZQ (qfloor (ZQ average / ZQ 2)) + NQ i * ZQ average) * dt.
Definition sample_contact_line_edges (nlabels : nat) (rolling : bool) (average : Z) (dt : Qc) (edges : list (flow * flow) * option exn) : res (list Qc) :=
  match edges, nlabels with
  | (_ :: _, _), S _ => Err SysExit
  | (_, Some e), _ => Err e
  | (items, None), _ => Ok (map (sample_time rolling average dt) (seq 0 (List.length items)))
  end.
