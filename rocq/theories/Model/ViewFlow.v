(** Model of the data preparation in /repo/strata/view_flowmap.py, and of
    /repo/droplets/data_utils.py.  Drawing itself (matplotlib) is not modelled, except for the
    assignment of bins to the cells of a two-dimensional histogram. *)
From Coq Require Import String.
From Verif.Base Require Import QcX Res Np Sort Sums.
From Verif.Model Require Import Bins Flow Sample.
Local Open Scope list_scope.

(** [data[l]]: numpy raises ValueError for unknown field names. *)
Definition field (l : string) (t : table) : res (list Qc) := of_option ValueErr (get_data l t).

(** ** droplets/data_utils.py *)
(** data_utils.py:24-27 [get_indices]: the indices of the values inside the limits, in order. *)
Definition get_indices (vs : list Qc) (lims : option Qc * option Qc) : list nat :=
  filter (fun i => within (fst lims) (snd lims) (nth i vs 0)) (seq 0 (List.length vs)).
(** data_utils.py:3-40 [get_lim_indices].  [limits] are the items of the dict.  [np.where] returns a tuple with the array, which is
    not distinguished here from the array; [np.intersect1d] of increasing arrays. *)
Definition intersect1d (a b : list nat) : list nat := filter (fun i => existsb (Nat.eqb i) b) a.
Definition get_lim_indices (t : table) (limits : list (string * (option Qc * option Qc))) : res (list nat) :=
  match limits with
  | [] => Ok (seq 0 (List.length (rows t)))
  | (l, lim) :: rest =>
    do vs <- field l t;
    fold_left (fun acc p => do inds <- acc; do ws <- field (fst p) t; Ok (intersect1d inds (get_indices ws (snd p)))) rest
              (Ok (get_indices vs lim))
  end.

(** ** Flow arrows *)
(** view_flowmap.py:176-182 [cut_system]; the minimum and maximum of no values raise ValueError. *)
Definition cut_system (cs : list Qc) (lims : option Qc * option Qc) : res (list bool) :=
  do cmin <- match fst lims with Some v => Ok v | None => of_option ValueErr (list_min cs) end;
  do cmax <- match snd lims with Some v => Ok v | None => of_option ValueErr (list_max cs) end;
  Ok (map (fun c => (qle cmin c && qle c cmax)%bool) cs).
(** Boolean indexing [cs[inds]]. *)
Definition masked {A} (inds : list bool) (cs : list A) : list A := map snd (filter fst (combine inds cs)).
Definition and_masks (a b : list bool) : list bool := map (fun p => (fst p && snd p)%bool) (combine a b).
(** view_flowmap.py:147-205 [get_quiver_data]; the result is the list of the five arrays. *)
Definition get_quiver_data (t : table) (flabels clabels : string * string) (colour : option string)
    (clim : option string * option Qc) (xlim ylim : option Qc * option Qc) : res (list (list Qc)) :=
  do xs <- field (fst clabels) t; do ys <- field (snd clabels) t;
  do us <- field (fst flabels) t; do vs <- field (snd flabels) t;
  let inds := and_masks (map (fun u => negb (qeq u 0)) us) (map (fun v => negb (qeq v 0)) vs) in
  do cx <- cut_system xs xlim; do cy <- cut_system ys ylim;
  let inds := and_masks (and_masks inds cx) cy in
  do inds <- match fst clim with
             | None => Ok inds
             | Some l => do cs <- field l t; do cc <- cut_system cs (snd clim, None); Ok (and_masks inds cc)
             end;
  let weights := match colour with
                 | None => map (fun _ => 1) (rows t)
                 | Some c => match get_data c t with Some ws => ws | None => map (fun _ => 1) (rows t) end
                 end in
  Ok (map (masked inds) [xs; ys; us; vs; weights]).

(** ** Density gradients *)
(** [np.gradient(f, h, edge_order=1)] along one axis of length n >= 2, h not 0. *)
Definition gradient1 (f : nat -> Qc) (n : nat) (h : Qc) (k : nat) : Qc :=
  if Nat.eqb k 0 then (f 1%nat - f 0%nat) / h
  else if Nat.eqb k (n - 1) then (f (n - 1)%nat - f (n - 2)%nat) / h
  else (f (k + 1)%nat - f (k - 1)%nat) / (ZQ 2 * h).
(** view_flowmap.py:415-432 [add_density_gradient] and 447-460 of [add_evaporation]: the sorted records and for each the two
    derivatives.  [np.gradient(M, dx, dy)] of the array with ny rows takes dx as the distance of the rows.
    Appending the fields is not modelled.  Without shape or spacing TypeError is raised. *)
Definition mass_gradients (data : list bin) (fi : finfo) : res (list (bin * (Qc * Qc))) :=
  match f_shape fi, f_spacing fi with
  | Some (nx, ny), Some (dx, dy) =>
    let s := sort_bins data in
    let nx := Z.to_nat nx in let ny := Z.to_nat ny in
    if negb (Nat.eqb (List.length s) (ny * nx)) then Err ValueErr
    else if (Nat.ltb nx 2 || Nat.ltb ny 2)%bool then Err ValueErr
    else let m j i := bM (nth (j * nx + i) s bin0) in
         let axis0 := dx in let axis1 := dy in
         Ok (combine s (grid ny nx (fun j i => (gradient1 (fun k => m j k) nx axis1 i, gradient1 (fun k => m k i) ny axis0 j))))
  | _, _ => Err TypeErr
  end.
Definition add_density_gradient := mass_gradients.
(** view_flowmap.py:436-466 [add_evaporation]: the sorted records with the value. *)
Definition add_evaporation (data : list bin) (fi : finfo) : res (list (bin * Qc)) :=
  do g <- mass_gradients data fi;
  Ok (map (fun p => (fst p, bU (fst p) * fst (snd p) + bV (fst p) * snd (snd p))) g).

(** ** Height maps *)
(** view_flowmap.py:303-317 [height]: numpy.histogram2d with [bins=shape]: [n] cells of equal size from the smallest to the largest
    value (half a unit around it, if there is one value only); the last cell includes its end.  [n] must be positive. *)
Definition hist_range (vs : list Qc) : Qc * Qc :=
  match list_min vs, list_max vs with
  | Some lo, Some hi => if qeq lo hi then (lo - 1 / ZQ 2, hi + 1 / ZQ 2) else (lo, hi)
  | _, _ => (0, 1)
  end.
Definition hist_cell (lo hi : Qc) (n : nat) (v : Qc) : Z :=
  if qeq v hi then Z.of_nat n - 1 else qfloor ((v - lo) / (hi - lo) * NQ n).
(** The sum of the weights in cell (i, j). *)
Definition hist2d (pts : list (Qc * Qc * Qc)) (nx ny : nat) (i j : nat) : Qc :=
  let rx := hist_range (map (fun p => fst (fst p)) pts) in
  let ry := hist_range (map (fun p => snd (fst p)) pts) in
  qsum (map snd (filter (fun p => (Z.eqb (hist_cell (fst rx) (snd rx) nx (fst (fst p))) (Z.of_nat i) &&
                                   Z.eqb (hist_cell (fst ry) (snd ry) ny (snd (fst p))) (Z.of_nat j))%bool) pts)).
Definition height_map (data : list bin) (V : bin -> Qc) (shape : nat * nat) (i j : nat) : Qc :=
  hist2d (map (fun b => (bX b, bY b, V b)) data) (fst shape) (snd shape) i j.

(** ** Contour maps *)
(** view_flowmap.py:320-345 [contour]: [data.reshape(info['shape'])], rows of ny records: the position and value at each point of the grid.
    [np.clip] of the values is applied only if [vlim] is set and no levels are given. *)
Definition clip (lim : option Qc * option Qc) (v : Qc) : Qc :=
  let v := match fst lim with Some lo => qmax lo v | None => v end in
  match snd lim with Some hi => qmin hi v | None => v end.
Definition contour_grid (data : list bin) (V : bin -> Qc) (shape : nat * nat) (vlim : option Qc * option Qc) (levels : bool) : res (nat -> nat -> Qc * Qc * Qc) :=
  if negb (Nat.eqb (List.length data) (fst shape * snd shape)) then Err ValueErr
  else Ok (fun i j => let b := nth (i * snd shape + j) data bin0 in (bX b, bY b, if levels then V b else clip vlim (V b))).

(** ** view_flowmap.py:222-284 [view_flowmap_2d]: which field of each file is drawn.  A file is given by its field names;
    [type] None is the default 'heightmap'.  The variable [label] is changed (267-268) for all following files. *)
Definition draw_types : list string := ["height"; "contour"]%string.
Definition add_label (label : string) (fs : list string) : string * list string :=
  if String.eqb label "flow" then (label, fs ++ ["flow"%string])
  else if String.eqb label "visc_diss" then ("visc"%string, fs ++ ["visc"%string])
  else if String.eqb label "evaporation" then (label, fs ++ ["evaporation"%string])
  else if (String.eqb label "grad_rho_x" || String.eqb label "grad_rho_y")%bool then (label, fs ++ ["grad_rho_x"; "grad_rho_y"]%string)
  else (label, fs).
Fixpoint draw_files (label : string) (files : list (list string)) : list string * option exn :=
  match files with
  | [] => ([], None)
  | fs :: files =>
    let (label, fs) := add_label label fs in
    if existsb (String.eqb label) fs then let r := draw_files label files in (label :: fst r, snd r)
    else ([], Some ValueErr)
  end.
Definition view_flowmap_2d (type : option string) (label : string) (files : list (list string)) : list string * option exn :=
  let type := match type with Some s => s | None => "heightmap"%string end in
  if existsb (String.eqb type) draw_types then draw_files label files else ([], Some TypeErr).
(** view_flowmap.py:109-115: the shape used for stream lines, for the extent of the bins which are kept. *)
Definition streamline_shape (xmin xmax ymin ymax dx dy : Qc) : Z * Z := (qtrunc ((xmax - xmin) / dx) + 2, qtrunc ((ymax - ymin) / dy) + 2)%Z.
