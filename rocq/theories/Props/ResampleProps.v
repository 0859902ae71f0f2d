(** Properties C23-C24: coarser and finer grids (droplets.resample). *)
From Coq Require Import String Permutation.
From Verif.Base Require Import QcX Res Np Sums.
From Verif.Model Require Import Flow GridAverage Resample.
From Verif.Spec Require Import FlowSpec GridSpec.
From Verif.Proofs Require Import FlowP GridP ResampleP.
Local Open Scope list_scope.

(** A flow map with records on a regular grid (in any order) and weights which name its fields. *)
Definition resampleable (ls : list string) (x0 y0 dx dy : Qc) (nx ny : nat) (weights : list (string * string)) (f : flow) : Prop :=
  In "X"%string ls /\ In "Y"%string ls /\ 0 < dx /\ 0 < dy /\ labels (data f) = ls /\ f_spacing (info f) = Some (dx, dy) /\
  gridded ls x0 y0 dx dy nx ny (rows (data f)) /\ names_ok ls weights.

(** ** C23.  [S]: the records within the limits. *)
Theorem C23_limits_select_a_grid : forall ls x0 y0 dx dy nx ny weights f xlim ylim S,
  resampleable ls x0 y0 dx dy nx ny weights f -> selects (in_limits ls xlim ylim) (rows (data f)) S ->
  exists i0 j0 mx my, (i0 + mx <= nx)%nat /\ (j0 + my <= ny)%nat /\ gridded ls (x0 + NQ i0 * dx) (y0 + NQ j0 * dy) dx dy mx my S.
Proof.
  intros ls x0 y0 dx dy nx ny weights f xlim ylim S (HX & HY & Hdx & Hdy & Hl & Hs & HG & HW).
  exact (down_select ls x0 y0 dx dy nx ny f HX HY Hdx Hdy HG xlim ylim S).
Qed.
Print Assumptions C23_limits_select_a_grid.

Theorem C23_downsampled_map : forall ls x0 y0 dx dy nx ny weights f xlim ylim bx by_ S X0 Y0 mx my,
  resampleable ls x0 y0 dx dy nx ny weights f -> (0 < bx)%nat -> (0 < by_)%nat ->
  selects (in_limits ls xlim ylim) (rows (data f)) S -> S <> [] -> gridded ls X0 Y0 dx dy mx my S ->
  exists out, downsample bx by_ weights xlim ylim f = Ok out /\ labels (data out) = ls /\
    (* the first new bin has the centre of the first bx by by_ bins; bins which do not fill a new one are left out *)
    let X1 := X0 + Q2Qc (1 # 2) * (dx * NQ bx - dx) in let Y1 := Y0 + Q2Qc (1 # 2) * (dy * NQ by_ - dy) in
    info out = mkFinfo (Some (Z.of_nat (mx / bx), Z.of_nat (my / by_))) (Some (X1, Y1)) (Some (dx * NQ bx, dy * NQ by_))
                       (Some (Z.of_nat (mx / bx) * Z.of_nat (my / by_))%Z) /\
    regular ls X1 Y1 (dx * NQ bx) (dy * NQ by_) (mx / bx) (my / by_) (rows (data out)) /\
    (* every new bin has the records in its area: sums and weighted means *)
    (forall r B, In r (rows (data out)) -> selects (in_area ls (fld ls "X" r) (fld ls "Y" r) (dx * NQ bx) (dy * NQ by_)) S B ->
       List.length B = (by_ * bx)%nat /\ fld ls "X" r = qmean (map (fld ls "X") B) /\ fld ls "Y" r = qmean (map (fld ls "Y") B) /\
       (forall l, In l ls -> l <> "X"%string -> l <> "Y"%string -> ~ In l (map fst weights) -> fld ls l r = qsum (map (fld ls l) B)) /\
       (forall l w, In (l, w) weights -> (forall r', In r' B -> 0 <= fld ls w r') -> weighted_mean (map (fld ls l) B) (map (fld ls w) B) (fld ls l r))) /\
    (* if the new bins fill the grid the totals are conserved *)
    ((mx / bx * bx = mx)%nat -> (my / by_ * by_ = my)%nat ->
       (forall l, In l ls -> l <> "X"%string -> l <> "Y"%string -> ~ In l (map fst weights) ->
          qsum (map (fld ls l) (rows (data out))) = qsum (map (fld ls l) S)) /\
       (forall l w, In (l, w) weights -> (forall r', In r' S -> 0 <= fld ls w r') ->
          qsum (map (fun r => fld ls l r * fld ls w r) (rows (data out))) = qsum (map (fun r => fld ls l r * fld ls w r) S))).
Proof.
  intros ls x0 y0 dx dy nx ny weights f xlim ylim bx by_ S X0 Y0 mx my (HX & HY & Hdx & Hdy & Hl & Hs & HG & HW).
  exact (down_result ls dx dy weights f HX HY Hdx Hdy Hl Hs HW xlim ylim bx by_ S X0 Y0 mx my).
Qed.
Print Assumptions C23_downsampled_map.
(** A factor of 0 raises. *)
Theorem C23_zero_factor : forall bx by_ weights xlim ylim f out, (bx = 0 \/ by_ = 0)%nat -> downsample bx by_ weights xlim ylim f <> Ok out.
Proof.
  intros bx by_ weights xlim ylim f out H. unfold downsample.
  destruct (coord_indices _) as [[kx ky]|e]; [|discriminate]. cbn [rbind].
  destruct (cut_system_limits xlim ylim f) as [f1|e]; [|discriminate]. cbn [rbind]. unfold downscaled_info.
  destruct (f_spacing (info f1)) as [[? ?]|]; [|discriminate]. destruct (f_shape (info f1)) as [[? ?]|]; [|discriminate].
  destruct (f_origin (info f1)) as [[? ?]|]; [|discriminate].
  replace (Nat.eqb bx 0 || Nat.eqb by_ 0)%bool with true; [discriminate|]. destruct H as [-> | ->]; [reflexivity|]. rewrite Nat.eqb_refl, orb_true_r. reflexivity.
Qed.
Print Assumptions C23_zero_factor.

(** A 3 x 2 grid, records not in order; weights U by M. *)
Definition zq (l : list Z) : list Qc := map ZQ l.
Definition ex_ls : list string := ["X"; "Y"; "M"; "U"]%string.
Definition ex_rows : list (list Qc) := map zq [[1; 0; 2; 3]; [0; 0; 2; 5]; [2; 0; 7; 1]; [0; 1; 0; 8]; [2; 1; 1; 1]; [1; 1; 4; 2]]%Z.
Definition ex_f : flow := mkFlow (mkTable ex_ls ex_rows) (mkFinfo (Some (3, 2)%Z) None (Some (1, 1)) None).
Definition ex_w : list (string * string) := [("U", "M")]%string.
Example C23_ex_resampleable : resampleable ex_ls 0 0 1 1 3 2 ex_w ex_f.
Proof.
  split; [simpl; auto|]. split; [simpl; auto|]. split; [apply qlt_true; vm_compute; reflexivity|]. split; [apply qlt_true; vm_compute; reflexivity|].
  split; [reflexivity|]. split; [reflexivity|]. split.
  - exists (map zq [[0; 0; 2; 5]; [1; 0; 2; 3]; [2; 0; 7; 1]; [0; 1; 0; 8]; [1; 1; 4; 2]; [2; 1; 1; 1]]%Z). split.
    + unfold ex_f, ex_rows. cbn [data rows map].
      eapply perm_trans; [apply perm_swap|]. apply perm_skip, perm_skip, perm_skip, perm_skip. apply perm_swap.
    + split; [reflexivity|]. split; [simpl; intros r [<- | [<- | [<- | [<- | [<- | [<- | []]]]]]]; reflexivity|].
      intros i j Hi Hj. destruct j as [|[|j]]; [| |lia]; destruct i as [|[|[|i]]]; try lia; split; apply qeq_true; vm_compute; reflexivity.
  - split; [repeat constructor; simpl; tauto|]. intros l w [[= <- <-] | []]. simpl. intuition discriminate.
Qed.
(** 2 x 2 bins to one: mass 8, mass averaged velocity (10 + 6 + 0 + 8) / 8 = 3. *)
Example C23_ex_values : match downsample 2 2 ex_w (None, None) (None, None) ex_f with
  | Ok out => qleqb (concat (rows (data out))) [Q2Qc (1 # 2); Q2Qc (1 # 2); ZQ 8; ZQ 3] = true | Err _ => False end.
Proof. vm_compute. reflexivity. Qed.

(** ** C24 *)
Theorem C24_copies : forall weights f, supersample None weights f = Ok f /\ supersample (Some 1%nat) weights f = Ok f.
Proof. intros. split; reflexivity. Qed.
Print Assumptions C24_copies.
(** With [F] the grid in which every bin is repeated n x n times, every new bin
    has the mean of the bins of F at most n - 1 rows and columns away. *)
Theorem C24_supersampled_map : forall ls x0 y0 dx dy nx ny weights f n g,
  resampleable ls x0 y0 dx dy nx ny weights f -> (0 < nx)%nat -> (0 < ny)%nat -> (2 <= n)%nat ->
  f_shape (info f) = Some (Z.of_nat nx, Z.of_nat ny) ->
  Permutation (rows (data f)) g -> regular ls x0 y0 dx dy nx ny g ->
  exists out F, supersample (Some n) weights f = Ok out /\ labels (data out) = ls /\
    info out = mkFinfo (Some (Z.of_nat (nx * n), Z.of_nat (ny * n))) (Some (x0, y0)) (Some (dx / NQ n, dy / NQ n))
                       (Some (Z.of_nat (nx * n) * Z.of_nat (ny * n))%Z) /\
    regular ls x0 y0 (dx / NQ n) (dy / NQ n) (nx * n) (ny * n) (rows (data out)) /\
    regular ls x0 y0 (dx / NQ n) (dy / NQ n) (nx * n) (ny * n) F /\
    (forall i j l, (i < nx * n)%nat -> (j < ny * n)%nat -> In l ls -> l <> "X"%string -> l <> "Y"%string ->
       fld ls l (nth (j * (nx * n) + i) F []) = fld ls l (nth (j / n * nx + i / n) g [])) /\
    (forall r B, In r (rows (data out)) ->
       selects (in_area ls (fld ls "X" r) (fld ls "Y" r) (NQ (2 * n - 1) * (dx / NQ n)) (NQ (2 * n - 1) * (dy / NQ n))) F B ->
       (forall l, In l ls -> l <> "X"%string -> l <> "Y"%string -> ~ In l (map fst weights) -> fld ls l r = qmean (map (fld ls l) B)) /\
       (forall l w, In (l, w) weights -> (forall r', In r' B -> 0 <= fld ls w r') -> weighted_mean (map (fld ls l) B) (map (fld ls w) B) (fld ls l r))).
Proof.
  intros ls x0 y0 dx dy nx ny weights f n g (HX & HY & Hdx & Hdy & Hl & Hs & HG & HW) Hnx Hny Hn Hsh.
  exact (super_result ls x0 y0 dx dy nx ny weights f HX HY Hdx Hdy Hl Hs HW n g Hnx Hny Hn Hsh).
Qed.
Print Assumptions C24_supersampled_map.
(** Values stay within the range of the input (so constant fields stay constant);
    a weighted field can also be 0, but not if all weights are positive. *)
Theorem C24_values_within_range : forall ls x0 y0 dx dy nx ny weights f n out r,
  resampleable ls x0 y0 dx dy nx ny weights f -> (0 < nx)%nat -> (0 < ny)%nat ->
  f_shape (info f) = Some (Z.of_nat nx, Z.of_nat ny) -> (2 <= n)%nat ->
  supersample (Some n) weights f = Ok out -> In r (rows (data out)) ->
  (forall l lo hi, In l ls -> l <> "X"%string -> l <> "Y"%string -> ~ In l (map fst weights) ->
     (forall c, In c (rows (data f)) -> lo <= fld ls l c <= hi) -> lo <= fld ls l r <= hi) /\
  (forall l w lo hi, In (l, w) weights -> (forall c, In c (rows (data f)) -> 0 <= fld ls w c) ->
     (forall c, In c (rows (data f)) -> lo <= fld ls l c <= hi) -> fld ls l r = 0 \/ (lo <= fld ls l r <= hi)) /\
  (forall l w, In (l, w) weights -> (forall c, In c (rows (data f)) -> 0 < fld ls w c) -> forall lo hi,
     (forall c, In c (rows (data f)) -> lo <= fld ls l c <= hi) -> lo <= fld ls l r <= hi).
Proof.
  intros ls x0 y0 dx dy nx ny weights f n out r (HX & HY & Hdx & Hdy & Hl & Hs & HG & HW) Hnx Hny Hsh.
  exact (super_range ls x0 y0 dx dy nx ny weights f HX HY Hdx Hdy Hl Hs HG HW Hnx Hny Hsh n out r).
Qed.
Print Assumptions C24_values_within_range.
Corollary C24_constant_fields : forall ls x0 y0 dx dy nx ny weights f n out r l v,
  resampleable ls x0 y0 dx dy nx ny weights f -> (0 < nx)%nat -> (0 < ny)%nat ->
  f_shape (info f) = Some (Z.of_nat nx, Z.of_nat ny) -> (2 <= n)%nat ->
  supersample (Some n) weights f = Ok out -> In r (rows (data out)) ->
  In l ls -> l <> "X"%string -> l <> "Y"%string -> ~ In l (map fst weights) ->
  (forall c, In c (rows (data f)) -> fld ls l c = v) -> fld ls l r = v.
Proof.
  intros ls x0 y0 dx dy nx ny weights f n out r l v H Hx Hy Hs Hn HO Hr H1 H2 H3 H4 HC.
  destruct (C24_values_within_range _ _ _ _ _ _ _ _ _ _ _ _ H Hx Hy Hs Hn HO Hr) as (A & _).
  destruct (A l v v H1 H2 H3 H4). { intros c Hc. rewrite (HC c Hc). split; apply Qcle_refl. }
  apply Qcle_antisym; assumption.
Qed.
Print Assumptions C24_constant_fields.
(** Finding: new bins do not cover the area of the old ones, although the first
    bin of the coarse map is refined into n x n bins: the fine grid starts at the
    centre of the first bin instead of its edge plus half a fine bin, so its left edge
    is dx (1 - 1/n) / 2 too far to the right (and the right edge as well). *)
Theorem C24_covers_same_area_refuted : forall ls x0 y0 dx dy nx ny weights f n g,
  resampleable ls x0 y0 dx dy nx ny weights f -> (0 < nx)%nat -> (0 < ny)%nat -> (2 <= n)%nat ->
  f_shape (info f) = Some (Z.of_nat nx, Z.of_nat ny) -> Permutation (rows (data f)) g -> regular ls x0 y0 dx dy nx ny g ->
  exists out ox oy sx sy, supersample (Some n) weights f = Ok out /\ f_origin (info out) = Some (ox, oy) /\ f_spacing (info out) = Some (sx, sy) /\
    let old_edge := x0 - dx / ZQ 2 in let new_edge := ox - sx / ZQ 2 in
    new_edge = old_edge + (dx - dx / NQ n) / ZQ 2 /\ old_edge < new_edge.
Proof.
  intros ls x0 y0 dx dy nx ny weights f n g H Hx Hy Hn Hs P R.
  destruct (C24_supersampled_map _ _ _ _ _ _ _ _ _ _ _ H Hx Hy Hn Hs P R) as (out & F & E & _ & I & _).
  exists out, x0, y0, (dx / NQ n), (dy / NQ n). rewrite I. split; [assumption|]. split; [reflexivity|]. split; [reflexivity|].
  cbv zeta. destruct H as (_ & _ & Hdx & _).
  assert (x0 - dx / NQ n / ZQ 2 = x0 - dx / ZQ 2 + (dx - dx / NQ n) / ZQ 2) as ->. { field. split; [apply NQ_nz; lia|apply ZQ_nz; lia]. }
  split; [reflexivity|].
  assert (0 < (dx - dx / NQ n) / ZQ 2); [|qlra'].
  apply qmult_pos; [|apply qinv_pos; apply qlt_true; vm_compute; reflexivity].
  replace (dx - dx / NQ n) with (dx * ((NQ n - 1) / NQ n)) by (field; apply NQ_nz; lia).
  apply qmult_pos; [assumption|]. apply qmult_pos; [|apply qinv_pos, NQ_pos; lia].
  assert (1 < NQ n); [|qlra']. replace 1 with (NQ 1) by (apply qeq_true; vm_compute; reflexivity). apply ZQ_lt. lia.
Qed.
Print Assumptions C24_covers_same_area_refuted.
Example C24_ex_size : match supersample (Some 2%nat) ex_w ex_f with
  | Ok out => List.length (rows (data out)) = 24%nat /\ f_shape (info out) = Some (6, 4)%Z /\
              qleqb (nth 7 (rows (data out)) []) [Q2Qc (1 # 2); Q2Qc (1 # 2); Q2Qc (16 # 9); Q2Qc (15 # 4)] = true
  | Err _ => False end.
Proof. vm_compute. repeat split. Qed.
