(** Properties C09-C14: averaging and combining data maps (simple format). *)
From Coq Require Import Permutation.
From Verif.Base Require Import QcX Res Np.
From Verif.Model Require Import Bins SimpleAverage.
From Verif.Spec Require Import MapSpec.
From Verif.Proofs Require Import SimpleAverageP CombineBinsP.

(** ** C09 *)
(** In every bin: mean mass and number, and conserved momentum and N*T. *)
Theorem C09_bin_conservation : forall atol rtol maps avg i b col,
  average_data atol rtol maps = Ok (Some avg) ->
  (forall m, In m maps -> weights_nonneg m) ->
  nth_error avg i = Some b -> bins_at i maps col ->
  let n := NQ (length maps) in
  bM b * n = total bM col /\ bN b * n = total bN col /\
  bM b * bU b * n = total (fun c => bM c * bU c) col /\
  bM b * bV b * n = total (fun c => bM c * bV c) col /\
  bN b * bT b * n = total (fun c => bN c * bT c) col.
Proof. exact average_conserves. Qed.
Print Assumptions C09_bin_conservation.

(** Over the whole map: the totals are the mean of the totals of the maps. *)
Theorem C09_total_conservation : forall atol rtol maps avg,
  average_data atol rtol maps = Ok (Some avg) ->
  (forall m, In m maps -> weights_nonneg m) ->
  let n := NQ (length maps) in
  let sum f := qsum (map (total f) maps) in
  total bM avg * n = sum bM /\ total bN avg * n = sum bN /\
  total (fun c => bM c * bU c) avg * n = sum (fun c => bM c * bU c) /\
  total (fun c => bM c * bV c) avg * n = sum (fun c => bM c * bV c) /\
  total (fun c => bN c * bT c) avg * n = sum (fun c => bN c * bT c).
Proof. exact average_totals. Qed.
Print Assumptions C09_total_conservation.

(** ** C10 *)
(** Permuted input: the same result if the coordinates agree exactly ... *)
Theorem C10_order_independent : forall atol rtol maps maps' coords,
  0 <= atol -> 0 <= rtol ->
  (forall m, In m maps -> same_coords coords m) -> Permutation maps maps' ->
  average_data atol rtol maps = average_data atol rtol maps'.
Proof. exact average_perm. Qed.
Print Assumptions C10_order_independent.

(** ... and in general the same values whenever both orders are accepted. *)
Theorem C10_order_independent_values : forall atol rtol maps maps' avg avg',
  Permutation maps maps' ->
  average_data atol rtol maps = Ok (Some avg) -> average_data atol rtol maps' = Ok (Some avg') ->
  same_values avg avg'.
Proof. exact average_perm_values. Qed.
Print Assumptions C10_order_independent_values.

(** Copies of one map average to this map. *)
Theorem C10_average_of_copies : forall atol rtol m n, 0 <= atol -> 0 <= rtol ->
  (forall b, In b m -> (bM b = 0 -> bU b = 0 /\ bV b = 0) /\ (bN b = 0 -> bT b = 0)) ->
  average_data atol rtol (repeat m (S n)) = Ok (Some m).
Proof. exact average_repeat. Qed.
Print Assumptions C10_average_of_copies.

(** Averages are within the range of the (weighted) values, and 0 without weight. *)
Theorem C10_average_within_range : forall atol rtol maps avg i b col (lo hi : Qc),
  average_data atol rtol maps = Ok (Some avg) ->
  (forall m, In m maps -> weights_nonneg m) ->
  nth_error avg i = Some b -> bins_at i maps col ->
  ((forall c, In c col -> lo <= bM c <= hi) -> lo <= bM b <= hi) /\
  ((forall c, In c col -> lo <= bN c <= hi) -> lo <= bN b <= hi) /\
  (0 < total bM col -> (forall c, In c col -> bM c <> 0 -> lo <= bU c <= hi) -> lo <= bU b <= hi) /\
  (0 < total bM col -> (forall c, In c col -> bM c <> 0 -> lo <= bV c <= hi) -> lo <= bV b <= hi) /\
  (0 < total bN col -> (forall c, In c col -> bN c <> 0 -> lo <= bT c <= hi) -> lo <= bT b <= hi) /\
  (total bM col = 0 -> bU b = 0 /\ bV b = 0) /\ (total bN col = 0 -> bT b = 0).
Proof. exact average_bounds. Qed.
Print Assumptions C10_average_within_range.

(** Scaling all masses and numbers scales only these in the result. *)
Theorem C10_weight_scaling : forall atol rtol c maps avg, 0 < c ->
  (forall m, In m maps -> weights_nonneg m) ->
  average_data atol rtol maps = Ok (Some avg) ->
  let scale b := mkBin (bX b) (bY b) (c * bN b) (bT b) (c * bM b) (bU b) (bV b) in
  average_data atol rtol (map (map scale) maps) = Ok (Some (map scale avg)).
Proof. exact average_scale. Qed.
Print Assumptions C10_weight_scaling.

(** ** C11 *)
(** Data is returned exactly when all maps are on the grid of the first one. *)
Theorem C11_accepts_only_same_grid : forall atol rtol first rest,
  (exists avg, average_data atol rtol (first :: rest) = Ok (Some avg)) <->
  (forall m, In m rest -> same_grid atol rtol first m).
Proof. exact average_accepts. Qed.
Print Assumptions C11_accepts_only_same_grid.

Theorem C11_rejects_with_ValueError : forall atol rtol first rest m,
  In m rest -> ~ same_grid atol rtol first m ->
  average_data atol rtol (first :: rest) = Err ValueErr.
Proof. exact average_rejects. Qed.
Print Assumptions C11_rejects_with_ValueError.

Theorem C11_coordinates_of_first_map : forall atol rtol first rest avg,
  average_data atol rtol (first :: rest) = Ok (Some avg) -> same_coords first avg.
Proof. exact average_coords. Qed.
Print Assumptions C11_coordinates_of_first_map.

Theorem C11_no_maps_no_data : forall atol rtol, average_data atol rtol [] = Ok None.
Proof. exact (fun _ _ => eq_refl). Qed.

(** ** C12 *)
Theorem C12_block_conservation : forall data info nx ny data' info' i j b,
  combine_bins data info nx ny = Ok (data', info') -> weights_nonneg data ->
  (i < fst (shape info'))%nat -> (j < snd (shape info'))%nat ->
  cell (snd (shape info')) data' (i, j) = Some b ->
  exists blk,
    map (cell (snd (shape info)) data) (block_cells (fst (shape info)) (snd (shape info)) nx ny i j) = map Some blk /\
    length blk = (nx * ny)%nat /\
    bM b = total bM blk /\ bN b = total bN blk /\
    bM b * bU b = total (fun c => bM c * bU c) blk /\
    bM b * bV b = total (fun c => bM c * bV c) blk /\
    bN b * bT b = total (fun c => bN c * bT c) blk /\
    (bM b = 0 -> bU b = 0 /\ bV b = 0) /\ (bN b = 0 -> bT b = 0).
Proof. exact combine_block. Qed.
Print Assumptions C12_block_conservation.

Theorem C12_total_conservation : forall data info nx ny data' info',
  combine_bins data info nx ny = Ok (data', info') -> weights_nonneg data ->
  Nat.divide nx (fst (shape info)) -> Nat.divide ny (snd (shape info)) ->
  total bM data' = total bM data /\ total bN data' = total bN data /\
  total (fun c => bM c * bU c) data' = total (fun c => bM c * bU c) data /\
  total (fun c => bM c * bV c) data' = total (fun c => bM c * bV c) data /\
  total (fun c => bN c * bT c) data' = total (fun c => bN c * bT c) data.
Proof. exact combine_totals. Qed.
Print Assumptions C12_total_conservation.

Theorem C12_values_within_range : forall data info nx ny data' info' i j b lo hi,
  combine_bins data info nx ny = Ok (data', info') -> weights_nonneg data ->
  (i < fst (shape info'))%nat -> (j < snd (shape info'))%nat ->
  cell (snd (shape info')) data' (i, j) = Some b ->
  (bM b <> 0 -> (forall c, In c data -> bM c <> 0 -> lo <= bU c <= hi) -> lo <= bU b <= hi) /\
  (bM b <> 0 -> (forall c, In c data -> bM c <> 0 -> lo <= bV c <= hi) -> lo <= bV b <= hi) /\
  (bN b <> 0 -> (forall c, In c data -> bN c <> 0 -> lo <= bT c <= hi) -> lo <= bT b <= hi).
Proof. exact combine_bounds. Qed.
Print Assumptions C12_values_within_range.

(** ** C13 *)
(** It succeeds exactly for positive block sizes and data which fits the shape. *)
Theorem C13_succeeds_iff : forall data info nx ny,
  (exists r, combine_bins data info nx ny = Ok r) <->
  (nx <> 0 /\ ny <> 0 /\ length data = fst (shape info) * snd (shape info))%nat.
Proof. exact combine_succeeds. Qed.
Print Assumptions C13_succeeds_iff.

Theorem C13_new_grid : forall data info nx ny data' info',
  combine_bins data info nx ny = Ok (data', info') ->
  shape info' = (fst (shape info) / nx, snd (shape info) / ny)%nat /\
  spacing info' = (NQ nx * fst (spacing info), NQ ny * snd (spacing info)) /\
  num_bins info' = length data' /\ on_grid info' data'.
Proof. exact combine_geometry. Qed.
Print Assumptions C13_new_grid.

(** Each combined bin is at the mean position of the bins in its block. *)
Theorem C13_bins_at_block_centres : forall data info nx ny data' info' i j b blk,
  combine_bins data info nx ny = Ok (data', info') -> on_grid info data ->
  (i < fst (shape info'))%nat -> (j < snd (shape info'))%nat ->
  cell (snd (shape info')) data' (i, j) = Some b ->
  map (cell (snd (shape info)) data) (block_cells (fst (shape info)) (snd (shape info)) nx ny i j) = map Some blk ->
  bX b * NQ (length blk) = total bX blk /\ bY b * NQ (length blk) = total bY blk.
Proof. exact combine_centres. Qed.
Print Assumptions C13_bins_at_block_centres.

Theorem C13_combine_one_by_one : forall data info, on_grid info data -> num_bins info = length data ->
  (forall b, In b data -> (bM b = 0 -> bU b = 0 /\ bV b = 0) /\ (bN b = 0 -> bT b = 0)) ->
  combine_bins data info 1 1 = Ok (data, info).
Proof. exact combine_one. Qed.
Print Assumptions C13_combine_one_by_one.

(** Combining twice is combining once (also when the shape is not divisible). *)
Theorem C13_combine_compose : forall data info a b c d data1 info1,
  weights_nonneg data -> c <> 0%nat -> d <> 0%nat ->
  combine_bins data info a b = Ok (data1, info1) ->
  combine_bins data1 info1 c d = combine_bins data info (a * c) (b * d).
Proof. exact combine_compose. Qed.
Print Assumptions C13_combine_compose.

(** ** C14 *)
Theorem C14_average_of_group_averages : forall atol rtol coords groups g avgs,
  0 <= atol -> 0 <= rtol -> (0 < g)%nat -> groups <> [] ->
  (forall gr, In gr groups -> length gr = g) ->
  (forall gr m, In gr groups -> In m gr -> same_coords coords m /\ weights_nonneg m) ->
  Forall2 (fun gr a => average_data atol rtol gr = Ok (Some a)) groups avgs ->
  average_data atol rtol avgs = average_data atol rtol (concat groups).
Proof. exact average_groups. Qed.
Print Assumptions C14_average_of_group_averages.

(** ** Concrete cases *)
Definition q (n : Z) (d : positive) : Qc := Q2Qc (n # d).
Definition ex_map1 := [mkBin (q 0 1) (q 0 1) (q 1 1) (q 300 1) (q 2 1) (q 3 1) (q (-1) 1); mkBin (q 0 1) (q 1 1) (q 0 1) (q 0 1) (q 0 1) (q 0 1) (q 0 1);
                       mkBin (q 1 1) (q 0 1) (q 2 1) (q 310 1) (q 4 1) (q 1 1) (q 1 1); mkBin (q 1 1) (q 1 1) (q 1 1) (q 290 1) (q 1 1) (q 0 1) (q 5 1)].
Definition ex_map2 := [mkBin (q 1 5000) (q 0 1) (q 3 1) (q 320 1) (q 6 1) (q 7 1) (q 1 1); mkBin (q 0 1) (q 1 1) (q 0 1) (q 0 1) (q 0 1) (q 0 1) (q 0 1);
                       mkBin (q 1 1) (q 0 1) (q 0 1) (q 0 1) (q 0 1) (q 0 1) (q 0 1); mkBin (q 1 1) (q 1 1) (q 1 1) (q 310 1) (q 3 1) (q 4 1) (q 1 1)].
Fixpoint list_eqb (l m : list bin) : bool :=
  match l, m with [], [] => true | a :: l, b :: m => beq a b && list_eqb l m | _, _ => false end.
Example C09_example_accepted : match average_data atol_default rtol_default [ex_map1; ex_map2] with
  | Ok (Some l) => list_eqb l
     [mkBin (q 0 1) (q 0 1) (q 2 1) (q 315 1) (q 4 1) (q 6 1) (q 1 2); mkBin (q 0 1) (q 1 1) (q 0 1) (q 0 1) (q 0 1) (q 0 1) (q 0 1); mkBin (q 1 1) (q 0 1) (q 1 1) (q 310 1) (q 2 1) (q 1 1) (q 1 1); mkBin (q 1 1) (q 1 1) (q 1 1) (q 300 1) (q 2 1) (q 3 1) (q 2 1)]
  | _ => false end = true.
Proof. vm_compute. reflexivity. Qed.
Example C09_example_nonneg : forall m, In m [ex_map1; ex_map2] -> weights_nonneg m.
Proof.
  intros m Hm b Hb. simpl in Hm. destruct Hm as [<-|[<-|[]]]; simpl in Hb;
  repeat (destruct Hb as [<-|Hb]; [split; simpl; discriminate|]); contradiction.
Qed.
Example C11_example_rejected :
  average_data atol_default rtol_default [ex_map1; map (fun b => mkBin (bX b + q 1 100) (bY b) (q 0 1) (q 0 1) (q 0 1) (q 0 1) (q 0 1)) ex_map1] = Err ValueErr.
Proof. vm_compute. reflexivity. Qed.
Definition ex_info := mkInfo (2, 2)%nat (1, 1) (0, 0) 4.
Example C12_example : match combine_bins ex_map1 ex_info 2 1 with
  | Ok (l, i) => list_eqb l [mkBin (q 1 2) (q 0 1) (q 3 1) (q 920 3) (q 6 1) (q 5 3) (q 1 3); mkBin (q 1 2) (q 1 1) (q 1 1) (q 290 1) (q 1 1) (q 0 1) (q 5 1)]
     && Nat.eqb (fst (shape i)) 1 && Nat.eqb (snd (shape i)) 2 && qeq (fst (spacing i)) (q 2 1)
  | _ => false end = true.
Proof. vm_compute. reflexivity. Qed.
