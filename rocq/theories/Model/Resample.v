(** Model of /repo/droplets/resample.py: down- and supersampling of flow maps.

    Coordinate labels are the default ('X', 'Y').  Two-dimensional arrays are
    stored row by row (y-major), as in Model/GridAverage.v. *)
From Coq Require Import String.
From Verif.Base Require Import QcX Res Np Sums Sort.
From Verif.Model Require Import Flow GridAverage.
Local Open Scope list_scope.

(** Field numbers of weights; a name which does not exist raises ValueError (numpy). *)
Definition label_indices (ls : list string) (weights : list (string * string)) : res (list (nat * nat)) :=
  rmapM (fun lw => do l <- of_option ValueErr (index_of (fst lw) ls); do w <- of_option ValueErr (index_of (snd lw) ls); Ok (l, w)) weights.
Definition coord_indices (ls : list string) : res (nat * nat) :=
  do kx <- of_option ValueErr (index_of "X"%string ls); do ky <- of_option ValueErr (index_of "Y"%string ls); Ok (kx, ky).

(** resample.py:218-240 [_cut_system_limits]; the minimum of no values raises ValueError. *)
Definition cut_system_limits (xlim ylim : option Qc * option Qc) (f : flow) : res flow :=
  do (kx, ky) <- coord_indices (labels (data f));
  let sel := filter (fun r => (within (fst xlim) (snd xlim) (col kx r) && within (fst ylim) (snd ylim) (col ky r))%bool) (rows (data f)) in
  let sx := Z.of_nat (List.length (unique (map (col kx) sel))) in
  let sy := Z.of_nat (List.length (unique (map (col ky) sel))) in
  do x0 <- col_min kx sel; do y0 <- col_min ky sel;
  Ok (mkFlow (mkTable (labels (data f)) sel) (mkFinfo (Some (sx, sy)) (Some (x0, y0)) (f_spacing (info f)) (Some (sx * sy)%Z))).

(** resample.py:243-256 [_get_downscaled_grid_info]; [bx], [by_] bins are combined.
    Unset information raises TypeError (None * n); [v // 0] raises ZeroDivisionError. *)
Definition downscaled_info (bx by_ : nat) (i : finfo) : res finfo :=
  match f_spacing i, f_shape i, f_origin i with
  | Some (dx, dy), Some (nx, ny), Some (ox, oy) =>
    if (Nat.eqb bx 0 || Nat.eqb by_ 0)%bool then Err ZeroDivErr else
    let sx := dx * NQ bx in let sy := dy * NQ by_ in
    let mx := (nx / Z.of_nat bx)%Z in let my := (ny / Z.of_nat by_)%Z in
    Ok (mkFinfo (Some (mx, my)) (Some (ox + Q2Qc (1 # 2) * (sx - dx), oy + Q2Qc (1 # 2) * (sy - dy)))
                (Some (sx, sy)) (Some (mx * my)%Z))
  | _, _, _ => Err TypeErr
  end.

(** resample.py:178-215 [_combine_bins]: one record of the result.  [np.average]
    raises ZeroDivisionError if the weights add up to zero, which gives 0 (206-209). *)
Definition block_rows (nx bx by_ i j : nat) (sorted : list record) : list record :=
  grid by_ bx (fun b a => at_ ((by_ * j + b) * nx + (bx * i + a)) sorted).
Definition weighted_or_zero (l w : nat) (rows : list record) : Qc :=
  match np_average (map (col l) rows) (map (col w) rows) with Ok v => v | Err _ => 0 end.
Definition combined_record (kx ky ncol : nat) (ws : list (nat * nat)) (x y : Qc) (rows : list record) : record :=
  let start := map (fun k => if Nat.eqb k kx then x else if Nat.eqb k ky then y else
                             if existsb (Nat.eqb k) (map fst ws) then 0 else qsum (map (col k) rows)) (seq 0 ncol) in
  fold_left (fun r lw => set_col (fst lw) (weighted_or_zero (fst lw) (snd lw) rows) r) ws start.

(** resample.py:7-59 [downsample_flow_data].  The input of [_combine_bins] is
    sorted by Y and X (187-188); a different number of records than in the grid
    raises ValueError in np.reshape. *)
Definition downsample (bx by_ : nat) (weights : list (string * string)) (xlim ylim : option Qc * option Qc) (f : flow) : res flow :=
  let ls := labels (data f) in
  do (kx, ky) <- coord_indices ls;
  do f1 <- cut_system_limits xlim ylim f;
  do i <- downscaled_info bx by_ (info f1);
  do t <- sort_table (data f1);
  match f_shape (info f1), f_shape i, f_origin i, f_spacing i with
  | Some (nx, ny), Some (mx, my), Some (ox, oy), Some (sx, sy) =>
    if negb (Nat.eqb (List.length (rows t)) (Z.to_nat ny * Z.to_nat nx)) then Err ValueErr else
    if Nat.eqb (Z.to_nat my * Z.to_nat mx) 0 then Ok (mkFlow (mkTable ls []) i) else
    do ws <- label_indices ls weights;
    Ok (mkFlow (mkTable ls (grid (Z.to_nat my) (Z.to_nat mx) (fun j i' =>
                 combined_record kx ky (List.length ls) ws (ox + sx * NQ i') (oy + sy * NQ j)
                   (block_rows (Z.to_nat nx) bx by_ i' j (rows t))))) i)
  | _, _, _, _ => Err TypeErr
  end.

(** resample.py:154-175 [_transfer_data_to_finer_grid]. *)
Definition finer (kx ky n nx ny : nat) (x0 y0 sx sy : Qc) (coarse : list record) : list record :=
  grid (ny * n) (nx * n) (fun j i =>
    set_col ky (y0 + sy * NQ j) (set_col kx (x0 + sx * NQ i) (at_ ((j / n) * nx + i / n) coarse))).

(** The slice [data[i0:i1, j0:j1]] (133-141): rows and columns at most n away. *)
Definition around (n size i : nat) : list nat := seq (i - n) (Nat.min (i + n + 1) size - (i - n)).
Definition window (n NX NY i j : nat) (d : list record) : list record :=
  flat_map (fun j' => map (fun i' => at_ (j' * NX + i') d) (around n NX i)) (around n NY j).

(** resample.py:117-152 [_supersample_data_on_grid]; [fine] is the grid before
    the values are multiplied by their weights in place (124-125). *)
Definition multiply (ws : list (nat * nat)) (r : record) : record :=
  fold_left (fun r lw => set_col (fst lw) (col (fst lw) r * col (snd lw) r) r) ws r.
Definition resampled_record (kx ky n NX NY : nat) (ws : list (nat * nat)) (fine : list record) (j i : nat) : record :=
  let bins := window n NX NY i j (map (multiply ws) fine) in
  let own := at_ (j * NX + i) fine in
  let start := map (fun k => if (Nat.eqb k kx || Nat.eqb k ky || existsb (Nat.eqb k) (map fst ws))%bool then col k own
                             else qmean (map (col k) bins)) (seq 0 (List.length own)) in
  fold_left (fun r lw =>
    let total := qsum (map (col (snd lw)) bins) in
    set_col (fst lw) (if qeq total 0 then 0 else qsum (map (col (fst lw)) bins) / total) r) ws start.

(** resample.py:62-115 [supersample_flow_data], 266-288 for the new grid:
    [factor = None] and 1 copy; 0 raises ZeroDivisionError. *)
Definition supersample (factor : option nat) (weights : list (string * string)) (f : flow) : res flow :=
  match factor with
  | None | Some 1%nat => Ok f
  | Some n =>
    let ls := labels (data f) in
    do t <- sort_table (data f);
    do (kx, ky) <- coord_indices ls;
    match f_shape (info f), f_spacing (info f) with
    | Some (nx, ny), Some (dx, dy) =>
      if Nat.eqb n 0 then Err ZeroDivErr else
      let sx := dx / NQ n in let sy := dy / NQ n in
      do x0 <- col_min kx (rows t); do y0 <- col_min ky (rows t);
      let cx := Z.to_nat nx in let cy := Z.to_nat ny in
      if negb (Nat.eqb (List.length (rows t)) (cy * cx)) then Err ValueErr else
      do ws <- label_indices ls weights;
      let fine := finer kx ky n cx cy x0 y0 sx sy (rows t) in
      let NX := (cx * n)%nat in let NY := (cy * n)%nat in
      Ok (mkFlow (mkTable ls (grid NY NX (resampled_record kx ky (n - 1) NX NY ws fine)))
                 (mkFinfo (Some (nx * Z.of_nat n, ny * Z.of_nat n)%Z) (Some (x0, y0)) (Some (sx, sy))
                          (Some (nx * Z.of_nat n * (ny * Z.of_nat n))%Z)))
    | _, _ => Err TypeErr
    end
  end.
