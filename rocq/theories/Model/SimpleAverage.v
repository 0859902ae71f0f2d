(** Model of /repo/strata/dataformats/simple/average.py. *)
From Verif.Base Require Import QcX Res Np Sums.
From Verif.Model Require Import Bins.

(** average.py:4, default tolerances. *)
Definition atol_default : Qc := Q2Qc (1 # 1000).
Definition rtol_default : Qc := Q2Qc (1 # 100000).

Section Average.
Variables atol rtol : Qc.

(** average.py:31-42 [init_with_coords]: every later map is compared with the
    first.  Maps of different length raise ValueError in numpy.
    Simplification: numpy broadcasts a map of one bin against any other
    map; here that is a ValueError as well. *)
Definition coords_match (first d : list bin) : bool :=
  allclose atol rtol (map bX first) (map bX d) && allclose atol rtol (map bY first) (map bY d).

(** average.py:44-59, one bin: [col] are the bins at one index in all maps. *)
Definition get_avg (f : bin -> Qc) (col : list bin) : Qc := qmean (map f col).
Definition get_weighted_avg (f w : bin -> Qc) (col : list bin) : Qc :=
  nan_to_num (ediv (qsum (map (fun b => f b * w b) col)) (qsum (map w col))).

Definition avg_bin (first : bin) (col : list bin) : bin :=
  mkBin (bX first) (bY first) (get_avg bN col) (get_weighted_avg bT bN col) (get_avg bM col)
        (get_weighted_avg bU bM col) (get_weighted_avg bV bM col).

(** The bins at index [i] in all maps. *)
Definition column (i : nat) (data : list (list bin)) : list bin :=
  map (fun d => nth i d bin0) data.

(** average.py:4-77.  [Ok None] is the empty dict returned for no data. *)
Definition average_data (data : list (list bin)) : res (option (list bin)) :=
  match data with
  | [] => Ok None
  | first :: rest =>
    if forallb (coords_match first) rest then
      Ok (Some (map (fun i => avg_bin (nth i first bin0) (column i data)) (seq 0 (length first))))
    else Err ValueErr
  end.
End Average.

(** average.py:80-148 [combine_bins].  [data] is a dict of equally long
    arrays; [reshape] raises ValueError if the shape does not fit; integer
    division by zero raises ZeroDivisionError.  Negative numbers of bins are not
    modelled. *)
(* average.py:138, 141: the bins of block (i, j), [ds[nx*i:nx*(i+1), ny*j:ny*(j+1)]] *)
Definition block (sy nx ny i j : nat) (data : list bin) : list bin :=
  grid nx ny (fun a b => nth ((nx * i + a) * sy + (ny * j + b)) data bin0).

(* average.py:138 *)
Definition block_sum (f : bin -> Qc) (blk : list bin) : Qc := qsum (map f blk).
(* average.py:140-144 *)
Definition block_avg (f w : bin -> Qc) (blk : list bin) : Qc :=
  match np_average (map f blk) (map w blk) with Ok q => q | Err _ => 0 end.

Definition combine_bins (data : list bin) (info : ginfo) (nx ny : nat) : res (list bin * ginfo) :=
  if (Nat.eqb nx 0 || Nat.eqb ny 0)%bool then Err ZeroDivErr else
  let sx := fst (shape info) in let sy := snd (shape info) in
  let shape' := (sx / nx, sy / ny)%nat in                                       (* 106 *)
  let spacing' := (fst (spacing info) * NQ nx, snd (spacing info) * NQ ny) in   (* 107 *)
  let half := Q2Qc (1 # 2) in
  let origin' := (fst (origin info) + half * fst (spacing info) * (NQ nx - 1),
                  snd (origin info) + half * snd (spacing info) * (NQ ny - 1)) in  (* 108-109 *)
  let num := (fst shape' * snd shape')%nat in                                   (* 110 *)
  let x := linspace (fst origin') (fst origin' + fst spacing' * (NQ (fst shape') - 1)) (fst shape') in (* 119-120 *)
  let y := linspace (snd origin') (snd origin' + snd spacing' * (NQ (snd shape') - 1)) (snd shape') in
  if negb (Nat.eqb (length data) (sx * sy)) then Err ValueErr else              (* 127 *)
  Ok (grid (fst shape') (snd shape') (fun i j =>
        let blk := block sy nx ny i j data in
        mkBin (nth i x 0) (nth j y 0)                                           (* 121-123 *)
              (block_sum bN blk) (block_avg bT bN blk) (block_sum bM blk)
              (block_avg bU bM blk) (block_avg bV bM blk)),                     (* 125-146 *)
      mkInfo shape' spacing' origin' num).
