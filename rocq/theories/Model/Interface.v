(** Model of /repo/droplets/interface.py: get_interface and the cell search.

    The record array is a list of bins; [V] is the field named by [label];
    coord_labels is the default ('X', 'Y').  [cutoff_bins] is an integer. *)
From Verif.Base Require Import QcX Res Np Sort.
From Verif.Model Require Import Bins Flow.

Section Interface.
Variable V : bin -> Qc.

(** interface.py:414-442 [_get_indices_in_radius]. *)
Definition sq (x : Qc) : Qc := x * x.
Definition indices_in_radius (cell : nat) (system : list bin) (radius : Qc) : list nat :=
  let x := bX (nth cell system bin0) in let y := bY (nth cell system bin0) in
  let ixs := filter (fun j => qle (sq (bX (nth j system bin0) - x)) (sq radius)) (seq 0 (length system)) in
  let indices := filter (fun j => qle (sq (bX (nth j system bin0) - x) + sq (bY (nth j system bin0) - y)) (sq radius)) ixs in
  filter (fun j => negb (Nat.eqb j cell)) indices.

(** interface.py:368-411 [_cell_is_droplet]. *)
Definition cell_is_droplet (cell : nat) (system : list bin) (radius cutoff : Qc) (cutoff_bins : Z) : bool :=
  (qle cutoff (V (nth cell system bin0)) &&
   Z.leb cutoff_bins (Z.of_nat (length (filter (fun j => qle cutoff (V (nth j system bin0)))
                                               (indices_in_radius cell system radius)))))%bool.

(** [np.where(data == cell)[0][0]] (195, 252): the first equal record. *)
Fixpoint find_record (b : bin) (data : list bin) : res nat :=
  match data with
  | [] => Err IndexErr
  | c :: data' => if beq c b then Ok 0%nat else rmap S (find_record b data')
  end.

(** [np.sort(layer, order=xlabel)] (319, 359): by X, ties by the other fields in field order. *)
Definition bin_key (b : bin) : list Qc := [bX b; bY b; bN b; bT b; bM b; bU b; bV b].
Definition bin_le (a b : bin) : bool := lexle (bin_key a) (bin_key b).

(** interface.py:163-171 [get_cutoff]; [np.min] of no values raises
    ValueError; [Ok None] is the failed assertion of a homogeneous system. *)
Definition get_cutoff (cutoff : option Qc) (data : list bin) : res (option Qc) :=
  match cutoff with
  | Some c => Ok (Some c)
  | None =>
    match list_min (map V data), list_max (map V data) with
    | Some vmin, Some vmax => if qeq vmin vmax then Ok None else Ok (Some (Q2Qc (1 # 2) * (vmin + vmax)))
    | _, _ => Err ValueErr
    end
  end.

(** interface.py:173-178 [get_yvalues]. *)
Definition get_yvalues (ys : list Qc) (ymin ymax : option Qc) : list Qc := filter (within ymin ymax) (unique ys).

(** interface.py:180-187 [get_radius].  [np.min] of a map object is the
    object itself, so that [next] gives the smallest difference along x only. *)
Definition get_radius (radius : option Qc) (data : list bin) : res Qc :=
  match radius with
  | Some r => Ok r
  | None => of_option ValueErr (list_min (qdiff (unique (map bX data))))
  end.

(** interface.py:250-258 [traverse_layer]. *)
Fixpoint traverse_layer (layer data : list bin) (radius cutoff : Qc) (nb : Z) : res (option nat) :=
  match layer with
  | [] => Ok None
  | cell :: layer' =>
    do index <- find_record cell data;
    if cell_is_droplet index data radius cutoff nb then Ok (Some index)
    else traverse_layer layer' data radius cutoff nb
  end.

(** interface.py:349-365: search from the walls. *)
Definition interface_walls (all : list bin) (radius cutoff : Qc) (nb : Z) (ymin ymax : option Qc)
    : res (list (nat * nat)) :=
  let indices := filter (fun i => qle cutoff (V (nth i all bin0))) (seq 0 (length all)) in
  let data := map (fun i => nth i all bin0) indices in
  rmap (@concat _) (rmapM (fun y =>
    let layer := isort bin_le (filter (fun b => qeq (bY b) y) data) in
    do lft <- traverse_layer layer data radius cutoff nb;
    match lft with
    | None => Ok []
    | Some l =>
      do rgt <- traverse_layer (rev layer) data radius cutoff nb;
      match rgt with
      | None => Err IndexErr
      | Some r => Ok [(nth l indices 0%nat, nth r indices 0%nat)]
      end
    end) (get_yvalues (map bY data) ymin ymax)).

(** interface.py:205-230: one step of the scan for the longest stretch;
    the state is (index_best, len_best, ibegin, len_current). *)
Definition scan_state := (nat * nat * option nat * nat)%type.
Definition scan_step (s : scan_state) (ic : nat * bool) : scan_state :=
  let '(ibest, lbest, ibegin, lcur) := s in
  let '(i, c) := ic in
  if c then
    match ibegin with
    | None => (ibest, lbest, Some i, 1%nat)
    | Some b => (ibest, lbest, Some b, S lcur)
    end
  else
    match ibegin with
    | Some b => if Nat.ltb lbest lcur then (b, lcur, None, 0%nat) else (ibest, lbest, None, 0%nat)
    | None => (ibest, lbest, None, 0%nat)
    end.
Definition scan (flags : list bool) : scan_state :=
  fold_left scan_step (combine (seq 0 (length flags)) flags) (0, 0, None, 0)%nat.

(** interface.py:201-248, the end of [find_interface_edges_in_layer]. *)
Definition find_edges (flags : list bool) : option (nat * nat) :=
  let n := length flags in
  let '(ibest, lbest, _, lcur) := scan (flags ++ flags) in
  let pick i l := let e1 := (i mod n)%nat in Some (e1, ((e1 + l - 1) mod n)%nat) in
  if (Nat.ltb 0 lcur && Nat.eqb lbest 0)%bool then pick 0%nat lcur
  else if Nat.eqb lbest 0 then None
  else pick ibest lbest.

(** interface.py:288-302: the copies of the cells on the other side of the periodic boundary. *)
Definition shift_x (d : Qc) (b : bin) : bin := mkBin (bX b + d) (bY b) (bN b) (bT b) (bM b) (bU b) (bV b).
Definition pbc_data (data : list bin) (box_x radius : Qc) : list bin :=
  map (shift_x box_x) (filter (fun b => qle (bX b) radius) data) ++
  map (shift_x (- box_x)) (filter (fun b => qle (box_x - radius) (bX b)) data).

(** interface.py:321-337. *)
Definition in_yslice (y radius : Qc) (b : bin) : bool := (qle (bY b) (y + radius) && qle (y - radius) (bY b))%bool.
Definition yslice_data (data : list bin) (box_x y radius : Qc) : list bin :=
  filter (in_yslice y radius) data ++ filter (in_yslice y radius) (pbc_data data box_x radius).

(** interface.py:189-199. *)
Definition filled_cells (sorted_layer data : list bin) (radius cutoff : Qc) (nb : Z) : res (list bool) :=
  rmapM (fun cell => do index <- find_record cell data; Ok (cell_is_droplet index data radius cutoff nb)) sorted_layer.

(** interface.py:275-348: search for the longest connected stretch. *)
Definition interface_longest (data : list bin) (box_x radius cutoff : Qc) (nb : Z) (ymin ymax : option Qc)
    : res (list (nat * nat)) :=
  rmap (@concat _) (rmapM (fun y =>
    let indices := filter (fun i => qeq (bY (nth i data bin0)) y) (seq 0 (length data)) in
    let layer := map (fun i => nth i data bin0) indices in
    let sorted_layer := isort bin_le layer in
    do flags <- filled_cells sorted_layer (yslice_data data box_x y radius) radius cutoff nb;
    match find_edges flags with
    | None => Ok []
    | Some (e1, e2) => Ok [(nth e1 indices 0%nat, nth e2 indices 0%nat)]
    end) (get_yvalues (map bY data) ymin ymax)).

(** interface.py:98-365 [get_interface]: the list of all yielded pairs;
    [Ok []] also for the warning about a homogeneous system. *)
Record iopts := mkIopts { cutoff_opt : option Qc; radius_opt : option Qc; bins_opt : Z;
                          longest_opt : bool; ylims_opt : option Qc * option Qc }.
Definition get_interface (data : list bin) (fi : finfo) (o : iopts) : res (list (nat * nat)) :=
  do c <- get_cutoff (cutoff_opt o) data;
  match c with
  | None => Ok []
  | Some cutoff =>
    do radius <- get_radius (radius_opt o) data;
    if longest_opt o then
      match size fi with
      | None => Err ValueErr
      | Some (box_x, _) => interface_longest data box_x radius cutoff (bins_opt o) (fst (ylims_opt o)) (snd (ylims_opt o))
      end
    else interface_walls data radius cutoff (bins_opt o) (fst (ylims_opt o)) (snd (ylims_opt o))
  end.
End Interface.
