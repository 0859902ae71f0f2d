(** Model of /repo/droplets/average.py: averaging flow maps of different
    extents on a common grid.

    Records are lists of values in field order (see Model/Flow.v); [kx] and
    [ky] are the field numbers of the coordinates (coord_labels is the default
    ('X', 'Y')).  Two-dimensional arrays are stored row by row (y-major). *)
From Coq Require Import String.
From Verif.Base Require Import QcX Res Np Sums.
From Verif.Model Require Import Flow.
Local Open Scope list_scope.

Notation record := (list Qc).
Definition at_ (p : nat) (l : list record) : record := nth p l [].

(** [min]/[max] of a column over all records of all sets (241-247): the minimum of the minima of each set. *)
Definition col_min (k : nat) (rows : list record) : res Qc := of_option ValueErr (list_min (map (col k) rows)).
Definition col_max (k : nat) (rows : list record) : res Qc := of_option ValueErr (list_max (map (col k) rows)).

(** average.py:225-279 [get_combined_grid].  [ncol] is the number of fields.
    The result is the grid with its shape (nx, ny).  [np.min] of no sets
    raises ValueError (also the explicit check in 250). *)
Record cgrid := mkGrid { g_rows : list record; g_nx : nat; g_ny : nat; g_x0 : Qc; g_y0 : Qc }.
Definition blank (ncol kx ky : nat) (x y : Qc) : record := set_col ky y (set_col kx x (repeat 0 ncol)).
Definition get_combined_grid (kx ky ncol : nat) (dx dy : Qc) (data_list : list (list record)) : res cgrid :=
  let nonempty := filter (fun d => negb (Nat.eqb (List.length d) 0)) data_list in   (* 256 *)
  do xmins <- rmapM (col_min kx) nonempty; do xmaxs <- rmapM (col_max kx) nonempty;
  do ymins <- rmapM (col_min ky) nonempty; do ymaxs <- rmapM (col_max ky) nonempty;
  do xmin <- of_option ValueErr (list_min xmins); do xmax <- of_option ValueErr (list_max xmaxs);
  do ymin <- of_option ValueErr (list_min ymins); do ymax <- of_option ValueErr (list_max ymaxs);
  let nx := Z.to_nat (qround ((xmax - xmin) / dx) + 1) in                           (* 263 *)
  let ny := Z.to_nat (qround ((ymax - ymin) / dy) + 1) in
  Ok (mkGrid (grid ny nx (fun j i => blank ncol kx ky (xmin + dx * NQ i) (ymin + dy * NQ j))) nx ny xmin ymin).

(** average.py:177-222 [transfer_data].  [shape] is (nx, ny) of the data, not
    negative.  The slice 220 is clipped at the edges of the grid; numpy assigns
    if the shapes agree, where an extent of one is broadcast. *)
Definition transfer_data (kx ky : nat) (dx dy : Qc) (g : cgrid) (data : list record) (nx ny : nat) : res (list record) :=
  do x0g <- col_min kx (g_rows g); do y0g <- col_min ky (g_rows g);
  do x0d <- col_min kx data; do y0d <- col_min ky data;
  let i0 := Z.to_nat (Z.max (qround (- (x0g - x0d) / dx)) 0) in
  let j0 := Z.to_nat (Z.max (qround (- (y0g - y0d) / dy)) 0) in
  let b := (Nat.min (i0 + nx) (g_nx g) - Nat.min i0 (g_nx g))%nat in
  let a := (Nat.min (j0 + ny) (g_ny g) - Nat.min j0 (g_ny g))%nat in
  if negb (Nat.eqb (List.length data) (ny * nx)) then Err ValueErr else             (* reshape *)
  if ((Nat.eqb a ny || Nat.eqb ny 1) && (Nat.eqb b nx || Nat.eqb nx 1))%bool then
    Ok (grid (g_ny g) (g_nx g) (fun j i =>
          if (Nat.leb j0 j && Nat.ltb j (j0 + ny) && Nat.leb i0 i && Nat.ltb i (i0 + nx))%bool
          then at_ ((j - j0) * nx + (i - i0)) data
          else at_ (j * g_nx g + i) (g_rows g)))
  else Err ValueErr.

(** average.py:100-174 [average_data]; [weights] as field numbers (label, weight).
    In 152-153 the total weight is the number of records times the already averaged weight.
    Records of different sizes raise ValueError (a size of one is broadcast by numpy: not modelled). *)
Definition mean_row (kx ky : nat) (weighted : list nat) (records : list (list record)) (p : nat) : record :=
  let first := at_ p (hd [] records) in
  map (fun k => if (Nat.eqb k kx || Nat.eqb k ky || existsb (Nat.eqb k) weighted)%bool then col k first
                else qmean (map (fun d => col k (at_ p d)) records)) (seq 0 (List.length first)).
Definition weigh (records : list (list record)) (p : nat) (r : record) (lw : nat * nat) : record :=
  let '(l, w) := lw in
  set_col l (nan_to_num (ediv (qsum (map (fun d => col l (at_ p d) * col w (at_ p d)) records))
                              (NQ (List.length records) * col w r))) r.
Definition average_records (kx ky : nat) (weights : list (nat * nat)) (records : list (list record)) : res (list record) :=
  match records with
  | [] => Err IndexErr
  | first :: _ =>
    if forallb (fun d => Nat.eqb (List.length d) (List.length first)) records then
      Ok (map (fun p => fold_left (weigh records p) weights (mean_row kx ky (map fst weights) records p))
              (seq 0 (List.length first)))
    else Err ValueErr
  end.

(** Labels of weights to field numbers; a label which does not exist raises KeyError (149-151). *)
Definition find_labels (ls : list string) (weights : list (string * string)) : res (list (nat * nat)) :=
  rmapM (fun lw => do l <- of_option KeyErr (index_of (fst lw) ls); do w <- of_option KeyErr (index_of (snd lw) ls); Ok (l, w)) weights.

(** average.py:9-97 [average_flow_data].  All maps have the field names of
    the first (a different number of fields raises; differing names are not modelled).
    [np.isclose] has its default tolerances; comparing unset spacings raises TypeError. *)
Definition spacing_close (a b : Qc * Qc) : bool :=
  let atol := Q2Qc (1 # 100000000) in let rtol := Q2Qc (1 # 100000) in
  (isclose atol rtol (fst a) (fst b) && isclose atol rtol (snd a) (snd b))%bool.
Definition get_spacing (maps : list flow) : res (Qc * Qc) :=
  match maps with
  | [] => Err ValueErr                                                              (* 75-76 *)
  | m :: rest =>
    match f_spacing (info m) with
    | None => match rest with [] => Err ValueErr | _ => Err TypeErr end             (* 77-78 *)
    | Some s =>
      do _ <- rmapM (fun m' => match f_spacing (info m') with
                               | None => Err TypeErr
                               | Some s' => if spacing_close s' s then Ok tt else Err ValueErr
                               end) rest;
      Ok s
    end
  end.
Definition map_shape (m : flow) : res (nat * nat) :=
  match f_shape (info m) with None => Err TypeErr | Some (nx, ny) => Ok (Z.to_nat nx, Z.to_nat ny) end.
Definition same_labels (a b : list string) : bool :=
  (Nat.eqb (List.length a) (List.length b) && forallb (fun p => String.eqb (fst p) (snd p)) (combine a b))%bool.
Definition average_flow_data (maps : list flow) (weights : list (string * string)) (exclude_empty : bool) : res flow :=
  do spacing <- get_spacing maps;
  let used := filter (fun m => (negb exclude_empty || negb (Nat.eqb (List.length (rows (data m))) 0))%bool) maps in
  match used with
  | [] => Err ValueErr                                                              (* 250-251 *)
  | m0 :: _ =>
    let ls := labels (data m0) in
    if negb (forallb (fun m => same_labels ls (labels (data m))) used) then Err ValueErr else
    do kx <- of_option ValueErr (index_of "X"%string ls); do ky <- of_option ValueErr (index_of "Y"%string ls);
    do g <- get_combined_grid kx ky (List.length ls) (fst spacing) (snd spacing) (map (fun m => rows (data m)) used);
    do records <- rmapM (fun m => do s <- map_shape m;
                                  transfer_data kx ky (fst spacing) (snd spacing) g (rows (data m)) (fst s) (snd s)) used;
    do ws <- find_labels ls weights;
    do avg <- average_records kx ky ws records;
    Ok (mkFlow (mkTable ls avg)
               (mkFinfo (Some (Z.of_nat (g_nx g), Z.of_nat (g_ny g))) (Some (g_x0 g, g_y0 g)) (Some spacing)
                        (Some (Z.of_nat (g_nx g * g_ny g)))))                       (* 58-70 *)
  end.
