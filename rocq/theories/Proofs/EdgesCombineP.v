From Coq Require Import String Permutation.
From Verif.Base Require Import QcX Res Np ListX Sort Sums.
From Verif.Model Require Import Bins Flow GridAverage ContactLine Sample Edges.
From Verif.Spec Require Import FlowSpec GridSpec EdgesSpec.
From Verif.Proofs Require Import FlowP GridAverageP GridP EdgesP.
Local Open Scope list_scope.

Lemma merge_value_mean k g l r : weight_of k = None -> (col k l = 0 -> col k r = 0 -> g = 0) -> merged_mean (col k l) (col k r) (merge_value k g l r).
Proof.
  intros HW HG. unfold merged_mean, merge_value. rewrite HW.
  destruct (qeq_spec (col k l) 0) as [EL|EL], (qeq_spec (col k r) 0) as [ER|ER]; cbn [negb andb].
  - split; [tauto|]. rewrite (HG EL ER), EL, ER. tauto.
  - split; [tauto|]. split; [tauto|reflexivity].
  - split; [tauto|]. split; [reflexivity|tauto].
  - split; [intros _ _|tauto]. field. discriminate.
Qed.
Lemma merge_value_weighted k w g l r : weight_of k = Some w -> g = 0 -> merged_weighted (col k l) (col w l) (col k r) (col w r) (merge_value k g l r).
Proof.
  intros HW ->. unfold merged_weighted, merge_value. rewrite HW.
  destruct (qeq_spec (col k l) 0) as [EL|EL], (qeq_spec (col k r) 0) as [ER|ER]; cbn [negb andb].
  - split; [tauto|]. split; [tauto|]. rewrite EL, ER. tauto.
  - split; [tauto|]. split; [tauto|]. split; [tauto|reflexivity].
  - split; [tauto|]. split; [tauto|]. split; [reflexivity|tauto].
  - destruct (qeq_spec (col w l + col w r) 0) as [ES|ES]; cbn [negb]; split; try tauto; split; try tauto; reflexivity.
Qed.
Lemma merge_coord k x l r : weight_of k = None -> col k l = x -> col k r = x -> merge_value k x l r = x.
Proof.
  intros HW EL ER. unfold merge_value. rewrite HW, EL, ER. destruct (qeq_spec x 0); cbn [negb andb]; [reflexivity|]. assert (ZQ 2 <> 0) as N by discriminate. transitivity (1 / ZQ 2 * (ZQ 2 * x)); [change (ZQ 2) with (1 + 1); ring|]. field. exact N.
Qed.

Lemma merge_row_eq dx dy g l r : merge_row dx dy g l r = mv (- (1 / ZQ 2 * dx)) (- (1 / ZQ 2 * dy)) (map (fun k => merge_value k (col k g) l r) (seq 0 (List.length g))).
Proof. reflexivity. Qed.
Lemma col_map_seq (h : nat -> Qc) n k : (k < n)%nat -> col k (map h (seq 0 n)) = h k.
Proof. intros H. unfold col. rewrite (nth_indep _ 0 (h 0%nat)) by (rewrite map_length, seq_length; exact H). rewrite map_nth, seq_nth by exact H. reflexivity. Qed.

(** sorting the rows of a regular grid does nothing *)
Lemma sort_rows_regular x0 y0 dx dy nx ny rows : 0 < dx -> regular fields x0 y0 dx dy nx ny rows -> sort_rows ny nx rows = rows.
Proof.
  intros Hdx R. unfold sort_rows. transitivity (grid ny nx (fun j i => at_ (j * nx + i) rows)); [|symmetry; apply (reg_eq_grid _ _ _ _ _ _ _ _ R)].
  unfold grid. apply flat_map_ext_in. intros j Hj. apply in_seq in Hj.
  apply (isort_id (fun a b => lexle (row_key a) (row_key b))).
  - intros a b. apply lexle_total.
  - intros a b c. apply lexle_trans.
  - intros a b H1 H2. pose proof (lexle_antisym _ _ H1 H2) as E. unfold row_key in E. congruence.
  - apply sorted_of_nth. intros p q a b Hpq Ha Hb.
    assert (p < nx)%nat as Hp. { rewrite <- (seq_length nx 0), <- (map_length (fun i => at_ (j * nx + i) rows)). apply nth_error_Some. congruence. }
    assert (q < nx)%nat as Hq. { rewrite <- (seq_length nx 0), <- (map_length (fun i => at_ (j * nx + i) rows)). apply nth_error_Some. congruence. }
    rewrite (nth_error_map_seq _ _ _ Hp) in Ha. rewrite (nth_error_map_seq _ _ _ Hq) in Hb. injection Ha as <-. injection Hb as <-.
    unfold row_key. apply lexle_cons. left.
    destruct (reg_row fields 0 1 x0 y0 dx dy nx ny eq_refl eq_refl rows p j R Hp ltac:(lia)) as (_ & E1 & _).
    destruct (reg_row fields 0 1 x0 y0 dx dy nx ny eq_refl eq_refl rows q j R Hq ltac:(lia)) as (_ & E2 & _).
    cbn [Nat.add] in *. rewrite E1, E2. apply step_lt; assumption.
Qed.

Definition half (d : Qc) : Qc := 1 / ZQ 2 * d.
Section Combine.
Variables (gx gy dx dy : Qc).
Hypothesis Hdx : 0 < dx.
Hypothesis Hdy : 0 < dy.
Let px (A : Z) := gx + ZQ A * dx.
Let py (B : Z) := gy + ZQ B * dy.

Lemma lattice_block m : lattice_map fields gx gy dx dy m -> exists a b nx ny, block fields gx gy dx dy a b nx ny (rows (data m)) /\ map_shape m = Ok (nx, ny).
Proof.
  intros (_ & _ & a & b & nx & ny & H1 & H2 & H3 & H4). exists a, b, nx, ny. split; [split; [exact H1|split; [exact H2|exact H4]]|].
  unfold map_shape. rewrite H3, !Nat2Z.id. reflexivity.
Qed.
Lemma combine_ok L R : lattice_map fields gx gy dx dy L -> lattice_map fields gx gy dx dy R ->
  exists out am bm NX NY, combine_flow_data (dx, dy) (L, R) = Ok out /\ labels (data out) = fields /\
    info out = mkFinfo (Some (Z.of_nat NX, Z.of_nat NY)) None (Some (dx, dy)) None /\ (0 < NX)%nat /\ (0 < NY)%nat /\
    regular fields (px am - half dx) (py bm - half dy) dx dy NX NY (rows (data out)) /\
    (forall d a b nx ny, d = rows (data L) \/ d = rows (data R) -> block fields gx gy dx dy a b nx ny d ->
       (am <= a /\ a + Z.of_nat nx <= am + Z.of_nat NX /\ bm <= b /\ b + Z.of_nat ny <= bm + Z.of_nat NY)%Z) /\
    (exists d a b nx ny, (d = rows (data L) \/ d = rows (data R)) /\ block fields gx gy dx dy a b nx ny d /\ a = am) /\
    (exists d a b nx ny, (d = rows (data L) \/ d = rows (data R)) /\ block fields gx gy dx dy a b nx ny d /\ (a + Z.of_nat nx = am + Z.of_nat NX)%Z) /\
    (exists d a b nx ny, (d = rows (data L) \/ d = rows (data R)) /\ block fields gx gy dx dy a b nx ny d /\ b = bm) /\
    (exists d a b nx ny, (d = rows (data L) \/ d = rows (data R)) /\ block fields gx gy dx dy a b nx ny d /\ (b + Z.of_nat ny = bm + Z.of_nat NY)%Z) /\
    forall j i, (j < NY)%nat -> (i < NX)%nat -> let r := at_ (j * NX + i) (rows (data out)) in
      let vl l := value_at fields (rows (data L)) l (px (am + Z.of_nat i)) (py (bm + Z.of_nat j)) in
      let vr l := value_at fields (rows (data R)) l (px (am + Z.of_nat i)) (py (bm + Z.of_nat j)) in
      (forall l, In l ["N"; "M"]%string -> merged_mean (vl l) (vr l) (fld fields l r)) /\
      (forall l w, In (l, w) edge_weights -> merged_weighted (vl l) (vl w) (vr l) (vr w) (fld fields l r)).
Proof.
  intros HL HR. destruct (lattice_block L HL) as (al & bl & nl & ml & BL & SL). destruct (lattice_block R HR) as (ar & br & nr & mr & BR & SR).
  set (dl := [rows (data L); rows (data R)]).
  assert (Forall (is_block fields gx gy dx dy) dl) as HF. { constructor; [exists al, bl, nl, ml; exact BL|]. constructor; [exists ar, br, nr, mr; exact BR|constructor]. }
  destruct (combined_grid fields 0 1 gx gy dx dy eq_refl eq_refl Hdx Hdy dl ltac:(discriminate) HF)
    as (am & bm & NX & NY & EG & HNX & HNY & HB & X0 & X1 & Y0 & Y1).
  assert (forall d, In d dl <-> d = rows (data L) \/ d = rows (data R)) as HI. { intros d. unfold dl. simpl. split; [intros [<- | [<- | []]]; auto|intros [-> | ->]; auto]. }
  pose proof (HB _ _ _ _ _ (proj2 (HI _) (or_introl eq_refl)) BL) as CL. pose proof (HB _ _ _ _ _ (proj2 (HI _) (or_intror eq_refl)) BR) as CR.
  set (P := projected fields 0 1 gx gy dx dy am bm).
  set (row := fun j i => merge_row dx dy (blank (List.length fields) 0 1 (px (am + Z.of_nat i)) (py (bm + Z.of_nat j))) (P al bl nl ml (rows (data L)) j i) (P ar br nr mr (rows (data R)) j i)).
  set (gl := grid NY NX (P al bl nl ml (rows (data L)))). set (gr := grid NY NX (P ar br nr mr (rows (data R)))).
  assert (forall j i, (j < NY)%nat -> (i < NX)%nat -> List.length (row j i) = 7%nat /\ col 0 (row j i) = px (am + Z.of_nat i) - half dx /\ col 1 (row j i) = py (bm + Z.of_nat j) - half dy /\
     forall k, (1 < k < 7)%nat -> col k (row j i) = merge_value k 0 (P al bl nl ml (rows (data L)) j i) (P ar br nr mr (rows (data R)) j i)) as Hrow.
  { intros j i Hj Hi. unfold row. rewrite merge_row_eq.
    destruct (projected_row fields 0 1 gx gy dx dy eq_refl eq_refl Hdx Hdy ltac:(discriminate) am bm al bl nl ml _ j i BL) as (_ & L1 & L2 & _).
    destruct (projected_row fields 0 1 gx gy dx dy eq_refl eq_refl Hdx Hdy ltac:(discriminate) am bm ar br nr mr _ j i BR) as (_ & R1 & R2 & _).
    rewrite blank_length. set (rw := map _ (seq 0 (List.length fields))).
    assert (List.length rw = 7%nat) as HLn by (unfold rw; rewrite map_length, seq_length; reflexivity).
    split; [rewrite mv_length; exact HLn|]. split; [|split].
    - rewrite mv_x by (rewrite HLn; lia). unfold rw. rewrite col_map_seq by (simpl; lia).
      rewrite (blank_x fields 0 1 eq_refl ltac:(discriminate)). rewrite (merge_coord 0 (px (am + Z.of_nat i)) (P al bl nl ml (rows (data L)) j i) (P ar br nr mr (rows (data R)) j i) eq_refl L1 R1). reflexivity.
    - rewrite mv_y by (rewrite HLn; lia). unfold rw. rewrite col_map_seq by (simpl; lia).
      rewrite (blank_y fields 0 1 eq_refl). rewrite (merge_coord 1 (py (bm + Z.of_nat j)) (P al bl nl ml (rows (data L)) j i) (P ar br nr mr (rows (data R)) j i) eq_refl L2 R2). reflexivity.
    - intros k Hk. rewrite mv_other by lia. unfold rw. rewrite col_map_seq by (simpl; lia). rewrite (blank_other fields 0 1) by lia. reflexivity. }
  assert (combine_flow_data (dx, dy) (L, R) = Ok (mkFlow (mkTable fields (grid NY NX row)) (mkFinfo (Some (Z.of_nat NX, Z.of_nat NY)) None (Some (dx, dy)) None))) as EO.
  { unfold combine_flow_data. cbn [fst snd]. fold dl. rewrite EG. cbn [rbind]. rewrite SL. cbn [rbind fst snd].
    rewrite (transfer_ok fields 0 1 gx gy dx dy eq_refl eq_refl Hdx Hdy ltac:(discriminate) am bm NX NY al bl nl ml _ HNX HNY BL CL). cbn [rbind]. rewrite SR. cbn [rbind fst snd].
    rewrite (transfer_ok fields 0 1 gx gy dx dy eq_refl eq_refl Hdx Hdy ltac:(discriminate) am bm NX NY ar br nr mr _ HNX HNY BR CR). cbn [rbind g_ny g_nx g_rows empty_grid].
    set (merged := map _ (seq 0 (NY * NX))).
    assert (merged = grid NY NX row) as ->.
    { unfold merged. rewrite (grid_of_list (map (fun p => merge_row dx dy _ _ _) (seq 0 (NY * NX))) NY NX []) by (rewrite map_length, seq_length; reflexivity).
      apply grid_ext. intros j i Hj Hi. assert (j * NX + i < NY * NX)%nat as Hp by (apply rm_lt; assumption).
      erewrite nth_error_nth; [|apply nth_error_map_seq; exact Hp]. unfold at_. rewrite !grid_nth by assumption. reflexivity. }
    rewrite (sort_rows_regular (px am - half dx) (py bm - half dy) dx dy NX NY); [reflexivity|exact Hdx|].
    split; [apply grid_length|]. split; [intros r Hr; apply in_grid in Hr; destruct Hr as (j & i & Hj & Hi & ->); apply Hrow; assumption|].
    intros i j Hi Hj. cbv zeta. rewrite grid_nth by assumption. rewrite fld_x, fld_y. destruct (Hrow j i Hj Hi) as (_ & -> & -> & _).
    unfold px, py. rewrite <- !lattice_shift. split; ring. }
  eexists _, am, bm, NX, NY. split; [exact EO|]. cbn [data info labels rows]. split; [reflexivity|]. split; [reflexivity|]. split; [exact HNX|]. split; [exact HNY|]. split.
  { split; [apply grid_length|]. split; [intros r Hr; apply in_grid in Hr; destruct Hr as (j & i & Hj & Hi & ->); apply Hrow; assumption|].
    intros i j Hi Hj. cbv zeta. rewrite grid_nth by assumption. rewrite fld_x, fld_y. destruct (Hrow j i Hj Hi) as (_ & -> & -> & _).
    unfold px, py. rewrite <- !lattice_shift. split; ring. }
  split; [intros d a b nx ny Hd; apply HB, HI; exact Hd|].
  split; [destruct X0 as (d & a & b & nx & ny & H & H'); exists d, a, b, nx, ny; rewrite <- HI; auto|].
  split; [destruct X1 as (d & a & b & nx & ny & H & H'); exists d, a, b, nx, ny; rewrite <- HI; auto|].
  split; [destruct Y0 as (d & a & b & nx & ny & H & H'); exists d, a, b, nx, ny; rewrite <- HI; auto|].
  split; [destruct Y1 as (d & a & b & nx & ny & H & H'); exists d, a, b, nx, ny; rewrite <- HI; auto|].
  intros j i Hj Hi. unfold at_. rewrite grid_nth by assumption. destruct (Hrow j i Hj Hi) as (_ & _ & _ & HV).
  destruct (projected_row fields 0 1 gx gy dx dy eq_refl eq_refl Hdx Hdy ltac:(discriminate) am bm al bl nl ml _ j i BL) as (_ & _ & _ & VL).
  destruct (projected_row fields 0 1 gx gy dx dy eq_refl eq_refl Hdx Hdy ltac:(discriminate) am bm ar br nr mr _ j i BR) as (_ & _ & _ & VR).
  fold P in VL, VR. cbv zeta.
  assert (forall l k, index_of l fields = Some k -> (1 < k)%nat -> value_at fields (rows (data L)) l (px (am + Z.of_nat i)) (py (bm + Z.of_nat j)) = col k (P al bl nl ml (rows (data L)) j i)) as VL'.
  { intros l k E K. symmetry. apply VL; [exact E|lia|lia]. }
  assert (forall l k, index_of l fields = Some k -> (1 < k)%nat -> value_at fields (rows (data R)) l (px (am + Z.of_nat i)) (py (bm + Z.of_nat j)) = col k (P ar br nr mr (rows (data R)) j i)) as VR'.
  { intros l k E K. symmetry. apply VR; [exact E|lia|lia]. }
  split.
  - assert (forall l k, index_of l fields = Some k -> (1 < k < 7)%nat -> weight_of k = None -> merged_mean (value_at fields (rows (data L)) l (px (am + Z.of_nat i)) (py (bm + Z.of_nat j)))
      (value_at fields (rows (data R)) l (px (am + Z.of_nat i)) (py (bm + Z.of_nat j))) (fld fields l (row j i))) as G.
    { intros l k E K W. rewrite (fld_col _ _ _ _ E), HV, (VL' l k E), (VR' l k E) by lia. apply merge_value_mean; [exact W|reflexivity]. }
    intros l Hl. simpl in Hl. destruct Hl as [<- | [<- | []]]; [apply (G _ 5%nat)|apply (G _ 4%nat)]; try reflexivity; lia.
  - assert (forall l w k kw, index_of l fields = Some k -> (1 < k < 7)%nat -> index_of w fields = Some kw -> (1 < kw)%nat -> weight_of k = Some kw ->
      merged_weighted (value_at fields (rows (data L)) l (px (am + Z.of_nat i)) (py (bm + Z.of_nat j))) (value_at fields (rows (data L)) w (px (am + Z.of_nat i)) (py (bm + Z.of_nat j)))
      (value_at fields (rows (data R)) l (px (am + Z.of_nat i)) (py (bm + Z.of_nat j))) (value_at fields (rows (data R)) w (px (am + Z.of_nat i)) (py (bm + Z.of_nat j))) (fld fields l (row j i))) as G.
    { intros l w k kw E K E' K' W. rewrite (fld_col _ _ _ _ E), HV, (VL' l k E), (VR' l k E), (VL' w kw E'), (VR' w kw E') by lia. apply merge_value_weighted; [exact W|reflexivity]. }
    intros l w Hl. unfold edge_weights in Hl. simpl in Hl. destruct Hl as [[= <- <-] | [[= <- <-] | [[= <- <-] | []]]];
      [apply (G _ _ 2%nat 4%nat)|apply (G _ _ 3%nat 4%nat)|apply (G _ _ 6%nat 5%nat)]; try reflexivity; lia.
Qed.
End Combine.

Lemma value_none rows l x y : (forall r, In r rows -> ~ (fld fields "X" r = x /\ fld fields "Y" r = y)) -> value_at fields rows l x y = 0.
Proof.
  intros H. unfold value_at. destruct (find _ rows) as [r|] eqn:E; [|reflexivity]. exfalso. apply find_some in E. destruct E as [E1 E2].
  apply andb_true_iff in E2. rewrite !qeq_true in E2. apply (H r E1). exact E2.
Qed.
Lemma apart_values rows rows' : apart rows rows' -> forall x y, (forall l, value_at fields rows l x y = 0) \/ (forall l, value_at fields rows' l x y = 0).
Proof.
  intros H x y. destruct (find (fun r => (qeq (fld fields "X" r) x && qeq (fld fields "Y" r) y)%bool) rows) as [r|] eqn:E.
  - right. intros l. apply value_none. intros r' Hr' [E1 E2]. apply find_some in E. destruct E as [Hr E]. apply andb_true_iff in E. rewrite !qeq_true in E.
    apply (H r r' Hr Hr'). destruct E. split; congruence.
  - left. intros l. unfold value_at. rewrite E. reflexivity.
Qed.
Lemma merged_mean_apart a b m : a = 0 \/ b = 0 -> merged_mean a b m -> m = a + b.
Proof. intros [-> | ->] (_ & H1 & H2); [rewrite H2 by reflexivity|rewrite H1 by reflexivity]; ring. Qed.
Lemma merged_weighted_apart a u b v m : a = 0 \/ b = 0 -> merged_weighted a u b v m -> m = a + b.
Proof. intros [-> | ->] (_ & _ & H1 & H2); [rewrite H2 by reflexivity|rewrite H1 by reflexivity]; ring. Qed.

Lemma combine_apart gx gy dx dy L R : 0 < dx -> 0 < dy -> lattice_map fields gx gy dx dy L -> lattice_map fields gx gy dx dy R -> apart (rows (data L)) (rows (data R)) ->
  exists out, combine_flow_data (dx, dy) (L, R) = Ok out /\
    (forall r l, In r (rows (data out)) -> In l fields -> l <> "X"%string -> l <> "Y"%string ->
       fld fields l r = value_at fields (rows (data L)) l (fld fields "X" r + half dx) (fld fields "Y" r + half dy) +
                        value_at fields (rows (data R)) l (fld fields "X" r + half dx) (fld fields "Y" r + half dy)) /\
    (forall l w, In l fields -> l <> "X"%string -> l <> "Y"%string -> In w fields -> w <> "X"%string -> w <> "Y"%string ->
       qsum (map (fld fields l) (rows (data out))) = qsum (map (fld fields l) (rows (data L))) + qsum (map (fld fields l) (rows (data R))) /\
       qsum (map (fun r => fld fields l r * fld fields w r) (rows (data out))) =
       qsum (map (fun r => fld fields l r * fld fields w r) (rows (data L))) + qsum (map (fun r => fld fields l r * fld fields w r) (rows (data R)))).
Proof.
  intros Hdx Hdy HL HR HA. destruct (combine_ok gx gy dx dy Hdx Hdy L R HL HR) as (out & am & bm & NX & NY & EO & LO & IO & HNX & HNY & RG & HB & _ & _ & _ & _ & HV).
  exists out. split; [exact EO|].
  set (px := fun i : nat => gx + ZQ (am + Z.of_nat i) * dx). set (py := fun j : nat => gy + ZQ (bm + Z.of_nat j) * dy).
  assert (forall j i l, (j < NY)%nat -> (i < NX)%nat -> In l fields -> l <> "X"%string -> l <> "Y"%string ->
     fld fields l (at_ (j * NX + i) (rows (data out))) = value_at fields (rows (data L)) l (px i) (py j) + value_at fields (rows (data R)) l (px i) (py j)) as HV'.
  { intros j i l Hj Hi Hl HX HY. destruct (HV j i Hj Hi) as [V1 V2]. 
    assert (forall l, value_at fields (rows (data L)) l (px i) (py j) = 0 \/ value_at fields (rows (data R)) l (px i) (py j) = 0) as Z.
    { intros l'. destruct (apart_values _ _ HA (px i) (py j)) as [Z|Z]; [left|right]; apply Z. }
    unfold fields in Hl. simpl in Hl. destruct Hl as [<- | [<- | [<- | [<- | [<- | [<- | [<- | []]]]]]]]; try congruence.
    - refine (merged_weighted_apart _ _ _ _ _ (Z _) (V2 "U"%string "M"%string _)). unfold edge_weights. simpl. auto.
    - refine (merged_weighted_apart _ _ _ _ _ (Z _) (V2 "V"%string "M"%string _)). unfold edge_weights. simpl. auto.
    - refine (merged_mean_apart _ _ _ (Z _) (V1 "M"%string _)). simpl. auto.
    - refine (merged_mean_apart _ _ _ (Z _) (V1 "N"%string _)). simpl. auto.
    - refine (merged_weighted_apart _ _ _ _ _ (Z _) (V2 "T"%string "N"%string _)). unfold edge_weights. simpl. auto. }
  assert (forall j i, (j < NY)%nat -> (i < NX)%nat -> fld fields "X" (at_ (j * NX + i) (rows (data out))) + half dx = px i /\ fld fields "Y" (at_ (j * NX + i) (rows (data out))) + half dy = py j) as HP.
  { intros j i Hj Hi. destruct RG as (_ & _ & RG). destruct (RG i j Hi Hj) as [E1 E2]. unfold at_. rewrite E1, E2. unfold px, py. rewrite <- !lattice_shift. split; ring. }
  split.
  - intros r l Hr Hl HX HY. destruct (reg_in fields _ _ _ _ _ _ _ r RG Hr) as (i & j & Hi & Hj & ->). destruct (HP j i Hj Hi) as [-> ->]. apply HV'; assumption.
  - intros l w Hl HX HY Hw HX' HY'. pose proof (proj1 RG) as HLn.
    destruct (lattice_block gx gy dx dy L HL) as (al & bl & nl & ml & BL & _). destruct (lattice_block gx gy dx dy R HR) as (ar & br & nr & mr & BR & _).
    destruct (index_of_some _ _ Hl) as (k & El). destruct (index_of_some _ _ Hw) as (kw & Ew).
    destruct (block_total fields 0 1 gx gy dx dy eq_refl eq_refl Hdx Hdy ltac:(discriminate) am bm NX NY al bl nl ml _ l w k kw BL (HB _ _ _ _ _ (or_introl eq_refl) BL) El Ew) as [TL1 TL2].
    destruct (block_total fields 0 1 gx gy dx dy eq_refl eq_refl Hdx Hdy ltac:(discriminate) am bm NX NY ar br nr mr _ l w k kw BR (HB _ _ _ _ _ (or_intror eq_refl) BR) El Ew) as [TR1 TR2].
    rewrite <- TL1, <- TL2, <- TR1, <- TR2. rewrite !(qsum_blocks _ (rows (data out)) NX NY HLn). 
    split; rewrite <- qsumn_plus; apply qsumn_ext; intros j Hj; rewrite <- qsumn_plus; apply qsumn_ext; intros i Hi.
    + apply HV'; assumption.
    + rewrite (HV' j i l), (HV' j i w) by assumption. unfold pos_x, pos_y. fold (px i) (py j).
      destruct (apart_values _ _ HA (px i) (py j)) as [Z|Z]; rewrite !Z; ring.
Qed.

(** *** Positions on the grid *)
Lemma half_half d : d = half d + half d.
Proof. unfold half. assert (ZQ 2 <> 0) as N by discriminate. transitivity (1 / ZQ 2 * (ZQ 2 * d)); [field; exact N|]. change (ZQ 2) with (1 + 1) at 2. ring. Qed.
Lemma coord_grid x d : 0 < d -> coord_on_grid x d = half d + ZQ (qfloor (x / d)) * d.
Proof. intros H. unfold coord_on_grid, half. ring. Qed.
Lemma coord_near x d : 0 < d -> x - half d < coord_on_grid x d /\ coord_on_grid x d <= x + half d.
Proof.
  intros H. rewrite coord_grid by exact H. destruct (qfloor_spec (x / d)) as [A B].
  pose proof (qmult_le_compat_l _ _ d (qc_lt_le _ _ H) A) as A'. replace (d * (x / d)) with x in A' by (field; apply qpos_nz; exact H).
  assert (x < d * (ZQ (qfloor (x / d)) + 1)) as B'.
  { assert (0 < d * (ZQ (qfloor (x / d)) + 1 - x / d)) as K. { apply qmult_pos; [exact H|]. clear -B. generalize dependent (ZQ (qfloor (x / d))). generalize (x / d). intros; qlra'. }
    replace (d * (ZQ (qfloor (x / d)) + 1 - x / d)) with (d * (ZQ (qfloor (x / d)) + 1) - x) in K by (field; apply qpos_nz; exact H). generalize dependent (d * (ZQ (qfloor (x / d)) + 1)). intros; qlra'. }
  replace (d * (ZQ (qfloor (x / d)) + 1)) with (ZQ (qfloor (x / d)) * d + d) in B' by ring. replace (d * ZQ (qfloor (x / d))) with (ZQ (qfloor (x / d)) * d) in A' by ring.
  generalize dependent (ZQ (qfloor (x / d)) * d). clear A B. intros t HA HB. pose proof (half_half d) as E. generalize dependent (half d). intros h E. subst d. split; clear -HA HB H; qlra'.
Qed.

Lemma coord_symmetric x d : 0 < d -> (forall k, x <> ZQ k * d) -> coord_on_grid (- x) d = - coord_on_grid x d.
Proof.
  intros H N. rewrite !coord_grid by exact H.
  assert (qfloor (- x / d) = - qfloor (x / d) - 1)%Z as ->.
  { destruct (qfloor_spec (x / d)) as [A B]. apply qfloor_unique.
    - rewrite ZQ_sub, ZQ_opp, ZQ_1. replace (- x / d) with (- (x / d)) by (field; apply qpos_nz; exact H). generalize dependent (ZQ (qfloor (x / d))). generalize dependent (x / d). clear. intros; qlra'.
    - rewrite ZQ_sub, ZQ_opp, ZQ_1. replace (- x / d) with (- (x / d)) by (field; apply qpos_nz; exact H).
      assert (ZQ (qfloor (x / d)) <> x / d) as D. { intros E. apply (N (qfloor (x / d))). rewrite E. field. apply qpos_nz; exact H. }
      generalize dependent (ZQ (qfloor (x / d))). generalize dependent (x / d). clear. intros q z A B D.
      assert (z < q) as K. { destruct (Qcle_lt_or_eq _ _ A) as [K|K]; [exact K|contradiction]. } qlra'. }
  rewrite ZQ_sub, ZQ_opp, ZQ_1. transitivity (half d - ZQ (qfloor (x / d)) * d - (half d + half d)); [rewrite <- half_half; ring|ring].
Qed.
Lemma coord_multiple k d : 0 < d -> coord_on_grid (ZQ k * d) d = ZQ k * d + half d.
Proof. intros H. rewrite coord_grid by exact H. replace (ZQ k * d / d) with (ZQ k) by (field; apply qpos_nz; exact H). rewrite qfloor_ZQ. ring. Qed.

(** a map around the origin, moved to a position on the grid *)
Lemma move_eq x y f : move x y f = mkFlow (mkTable (labels (data f)) (map (mv x y) (rows (data f)))) (info f).
Proof. reflexivity. Qed.
Lemma lattice_move gx gy dx dy x y f : lattice_map fields gx gy dx dy f -> lattice_map fields (gx + x) (gy + y) dx dy (move x y f).
Proof.
  intros (L & S & a & b & nx & ny & H1 & H2 & H3 & R). rewrite move_eq. split; [exact L|]. split; [exact S|]. exists a, b, nx, ny. cbn [data info rows]. split; [exact H1|]. split; [exact H2|]. split; [exact H3|].
  apply (regular_mv x y) in R. replace (gx + x + ZQ a * dx) with (gx + ZQ a * dx + x) by ring. replace (gy + y + ZQ b * dy) with (gy + ZQ b * dy + y) by ring. exact R.
Qed.
Lemma lattice_rebase gx gy dx dy A B f : lattice_map fields (gx + ZQ A * dx) (gy + ZQ B * dy) dx dy f -> lattice_map fields gx gy dx dy f.
Proof.
  intros (L & S & a & b & nx & ny & H1 & H2 & H3 & R). split; [exact L|]. split; [exact S|]. exists (A + a)%Z, (B + b)%Z, nx, ny. split; [exact H1|]. split; [exact H2|]. split; [exact H3|].
  rewrite !ZQ_add. replace (gx + (ZQ A + ZQ a) * dx) with (gx + ZQ A * dx + ZQ a * dx) by ring. replace (gy + (ZQ B + ZQ b) * dy) with (gy + ZQ B * dy + ZQ b * dy) by ring. exact R.
Qed.

Lemma half_div d : d / ZQ 2 = half d.
Proof. unfold half. field. discriminate. Qed.
Lemma coord_on_grid_spec x d : 0 < d -> snapped d x (coord_on_grid x d).
Proof. intros H. unfold snapped. rewrite (half_div d). split; [exists (qfloor (x / d)); unfold coord_on_grid; apply eq_refl|apply coord_near; exact H]. Qed.
Lemma coord_zero d : 0 < d -> coord_on_grid 0 d = half d.
Proof. intros H. pose proof (coord_multiple 0 d H) as E. rewrite ZQ_0 in E. replace (0 * d) with 0 in E by ring. rewrite E. ring. Qed.

Lemma combine_map_l {A B C} (f : A -> B) (l : list A) (m : list C) : combine (map f l) m = map (fun p => (f (fst p), snd p)) (combine l m).
Proof. revert m; induction l as [|a l IH]; intros [|c m]; simpl; try reflexivity. f_equal. apply IH. Qed.

(** one edge, placed at its position *)
Lemma placed_edge d dx dy frames : 0 < dx -> 0 < dy -> dx <= ZQ 2 * dy -> d <> SOther -> Forall (frame_ok dx dy) frames -> frames <> [] ->
  exists fs ps out, rmapM (fun f => add_adjusted_flow (fst f) d (snd f)) frames = Ok fs /\
    average_edge fs = Ok (qmean (map fst ps), out) /\
    (forall x, edge_average_of d dx dy (map fst frames) ps x (half dy) (rows (data (move x (half dy) out)))) /\
    lattice_map fields 0 0 dx dy out.
Proof.
  intros Hdx Hdy Hxy Hd HF Hne.
  destruct (edge_average d dx dy frames Hdx Hdy Hxy Hd HF Hne) as (fs & ps & out & x0 & nx & ny & E & HP & EA & LO & Hnx & Hny & R & HO & SH & SP & HC & HV).
  exists fs, ps, out. split; [exact E|]. split; [exact EA|].
  assert (forall r, In r (rows (data out)) -> (1 < List.length r)%nat) as HLn. { intros r Hr. destruct R as (_ & R & _). rewrite (R r Hr). simpl. lia. }
  split.
  - intros x. rewrite move_eq. cbn [data rows]. split; [clear -HP; induction HP as [|f p frames ps H HF IH]; simpl; constructor; [exact H|exact IH]|]. split; [|split].
    + exists nx, ny. split; [exact Hnx|]. split; [exact Hny|]. pose proof (regular_mv x (half dy) _ _ _ _ _ _ _ R) as R'. replace (0 + half dy) with (half dy) in R' by ring.
      replace (match d with SLeft => x - NQ (nx - 1) * dx | _ => x end) with (x0 + x); [exact R'|]. unfold one_sided in HO. destruct d; rewrite HO; ring.
    + intros c p b Hcp Hb. rewrite combine_map_l in Hcp. apply in_map_iff in Hcp. destruct Hcp as ((f & p') & [= <- <-] & Hfp). cbn [fst snd] in Hb.
      destruct (HC (f, p') b Hfp Hb) as (r & Hr & EX & EY). cbn [fst snd] in EX, EY. exists (mv x (half dy) r). split; [apply in_map; exact Hr|].
      rewrite fld_x, fld_y, mv_x, mv_y by (apply HLn; exact Hr). rewrite fld_x in EX. rewrite fld_y in EY. rewrite EX, EY. split; ring.
    + intros r' Hr'. apply in_map_iff in Hr'. destruct Hr' as (r & <- & Hr). specialize (HV r Hr). cbv zeta in HV.
      assert (forall l, map (fun cp => cell_value (fst cp) l (fld fields "X" (mv x (half dy) r) - x + fst (snd cp)) (fld fields "Y" (mv x (half dy) r) - half dy + snd (snd cp))) (combine (map fst frames) ps) =
         map (fun fp : (list bin * finfo) * (Qc * Qc) => cell_value (fst (fst fp)) l (fld fields "X" r + fst (snd fp)) (fld fields "Y" r + snd (snd fp))) (combine frames ps)) as EV.
      { intros l. rewrite combine_map_l, map_map. apply map_ext. intros [f p]. cbn [fst snd]. rewrite !fld_x, !fld_y, mv_x, mv_y by (apply HLn; exact Hr). f_equal; ring. }
      cbv zeta. destruct HV as [V1 V2]. split.
      * intros l Hl. rewrite EV. rewrite mv_fld; [apply V1; exact Hl| |]; simpl in Hl; destruct Hl as [<- | [<- | []]]; discriminate.
      * intros Hpos. rewrite !EV, (mv_fld x (half dy) r "U"), (mv_fld x (half dy) r "V"), (mv_fld x (half dy) r "T") by (intros K; discriminate K). apply V2. intros f b Hf Hb. apply (Hpos (fst f)); [apply in_map; exact Hf|exact Hb].
  - split; [exact LO|]. split; [exact SP|].
    exists (match d with SLeft => - Z.of_nat (nx - 1) | _ => 0 end)%Z, 0%Z, nx, ny. split; [exact Hnx|]. split; [exact Hny|]. split; [exact SH|].
    replace (0 + ZQ 0 * dy) with 0 by (rewrite ZQ_0; ring). replace (0 + ZQ _ * dx) with x0; [exact R|]. unfold one_sided in HO. destruct d; rewrite HO; rewrite ?ZQ_opp, ?ZQ_0; unfold NQ; ring.
Qed.
Lemma edge_frames frames ls rs :
  rmapM (fun f => add_adjusted_flow (fst f) SLeft (snd f)) (map (fun f : (list bin * list bin) * finfo => (fst (fst f), snd f)) frames) = Ok ls ->
  rmapM (fun f => add_adjusted_flow (fst f) SRight (snd f)) (map (fun f : (list bin * list bin) * finfo => (snd (fst f), snd f)) frames) = Ok rs ->
  exists fs, rmapM edge_frame frames = Ok fs /\ map fst fs = ls /\ map snd fs = rs.
Proof.
  revert ls rs. induction frames as [|f frames IH]; intros ls rs; cbn [map rmapM].
  - intros [= <-] [= <-]. exists []. auto.
  - cbn [fst snd]. destruct (add_adjusted_flow (fst (fst f)) SLeft (snd f)) as [l|] eqn:EL; [|discriminate]. destruct (add_adjusted_flow (snd (fst f)) SRight (snd f)) as [r|] eqn:ER; [|cbn [rbind]; discriminate].
    cbn [rbind]. destruct (rmapM _ (map _ frames)) as [ls'|] eqn:E1 in |- *; [|discriminate]. cbn [rbind]. intros [= <-].
    destruct (rmapM _ (map _ frames)) as [rs'|] eqn:E2 in |- *; [|discriminate]. cbn [rbind]. intros [= <-].
    destruct (IH ls' rs' E1 E2) as (fs & E & F1 & F2). exists ((l, r) :: fs). unfold edge_frame at 1. rewrite EL. cbn [rbind]. rewrite ER. cbn [rbind]. rewrite E. cbn [rbind map fst snd]. rewrite F1, F2. auto.
Qed.

Lemma rmapM_firstn {A B} (f : A -> res B) l m n : rmapM f l = Ok m -> rmapM f (firstn n l) = Ok (firstn n m).
Proof.
  revert m n. induction l as [|a l IH]; intros m n; cbn [rmapM]; [intros [= <-]; rewrite !firstn_nil; reflexivity|].
  destruct (f a) as [b|] eqn:E; [|discriminate]. cbn [rbind]. destruct (rmapM f l) as [m'|] eqn:F; [|discriminate]. intros [= <-].
  destruct n as [|n]; [reflexivity|]. cbn [firstn rmapM]. rewrite E. cbn [rbind]. rewrite (IH m' n eq_refl). reflexivity.
Qed.
Lemma rmapM_skipn {A B} (f : A -> res B) l m n : rmapM f l = Ok m -> rmapM f (skipn n l) = Ok (skipn n m).
Proof.
  revert m n. induction l as [|a l IH]; intros m n; cbn [rmapM]; [intros [= <-]; rewrite !skipn_nil; reflexivity|].
  destruct (f a) as [b|] eqn:E; [|discriminate]. cbn [rbind]. destruct (rmapM f l) as [m'|] eqn:F; [|discriminate]. intros [= <-].
  destruct n as [|n]; cbn [skipn]; [cbn [rmapM]; rewrite E; cbn [rbind]; rewrite F; reflexivity|]. exact (IH m' n eq_refl).
Qed.
Lemma rmapM_window {A B} (f : A -> res B) l m k n : rmapM f l = Ok m -> rmapM f (window k n l) = Ok (window k n m).
Proof. intros H. unfold window. apply rmapM_firstn, rmapM_skipn, H. Qed.
Lemma rmapM_as_map {A B} (f : A -> res B) l m : rmapM f l = Ok m -> map f l = map Ok m.
Proof.
  revert m. induction l as [|a l IH]; intros m; cbn [rmapM]; [intros [= <-]; reflexivity|].
  destruct (f a) as [b|] eqn:E; [|discriminate]. cbn [rbind]. destruct (rmapM f l) as [m'|] eqn:F; [|discriminate]. intros [= <-]. cbn [map]. rewrite E, (IH m' eq_refl). reflexivity.
Qed.
Lemma run_items_ok {A B} (f : A -> res B) items outs final : rmapM f items = Ok outs -> run_items f items final = (outs, final).
Proof.
  revert outs. induction items as [|a l IH]; intros m; cbn [rmapM]; [intros [= <-]; reflexivity|].
  destruct (f a) as [b|] eqn:E; [|discriminate]. cbn [rbind]. destruct (rmapM f l) as [m'|] eqn:F; [|discriminate]. intros [= <-]. cbn [run_items]. rewrite E, (IH m' eq_refl). reflexivity.
Qed.

Definition edges_ok (dx dy : Qc) (f : (list bin * list bin) * finfo) : Prop :=
  edge_cells dx dy (fst (fst f)) /\ edge_cells dx dy (snd (fst f)) /\ f_spacing (snd f) = Some (dx, dy).
Definition lefts (frames : list ((list bin * list bin) * finfo)) := map (fun f => fst (fst f)) frames.
Definition rights (frames : list ((list bin * list bin) * finfo)) := map (fun f => snd (fst f)) frames.

(** the two averaged edges: what they are, and where their records lie *)
Lemma averaged_edges_ok recenter dx dy frames : 0 < dx -> 0 < dy -> dx <= ZQ 2 * dy -> Forall (edges_ok dx dy) frames -> frames <> [] ->
  exists fs L R psl psr xl xr, rmapM edge_frame frames = Ok fs /\ averaged_edges recenter (dx, dy) fs = Ok (L, R) /\
    edge_average_of SLeft dx dy (lefts frames) psl xl (dy / ZQ 2) (rows (data L)) /\
    edge_average_of SRight dx dy (rights frames) psr xr (dy / ZQ 2) (rows (data R)) /\
    (let p := edge_positions recenter (qmean (map fst psl)) (qmean (map fst psr)) in xl = coord_on_grid (fst p) dx /\ xr = coord_on_grid (snd p) dx) /\
    lattice_map fields (half dx) (half dy) dx dy L /\ lattice_map fields (half dx) (half dy) dx dy R.
Proof.
  intros Hdx Hdy Hxy HF Hne.
  set (fl := map (fun f : (list bin * list bin) * finfo => (fst (fst f), snd f)) frames). set (fr := map (fun f : (list bin * list bin) * finfo => (snd (fst f), snd f)) frames).
  assert (Forall (frame_ok dx dy) fl /\ Forall (frame_ok dx dy) fr /\ fl <> [] /\ fr <> []) as (HL & HR & NL & NR).
  { unfold fl, fr. rewrite !Forall_forall. rewrite Forall_forall in HF. repeat split; try (destruct frames; [tauto|discriminate]);
    apply in_map_iff in H; destruct H as (f & <- & Hf); apply (HF f Hf). }
  destruct (placed_edge SLeft dx dy fl Hdx Hdy Hxy ltac:(discriminate) HL NL) as (ls & psl & ol & EL & AL & PL & LL).
  destruct (placed_edge SRight dx dy fr Hdx Hdy Hxy ltac:(discriminate) HR NR) as (rs & psr & or & ER & AR & PR & LR).
  destruct (edge_frames frames ls rs EL ER) as (fs & EF & E1 & E2).
  set (p := edge_positions recenter (qmean (map fst psl)) (qmean (map fst psr))).
  exists fs, (move (coord_on_grid (fst p) dx) (half dy) ol), (move (coord_on_grid (snd p) dx) (half dy) or), psl, psr, (coord_on_grid (fst p) dx), (coord_on_grid (snd p) dx).
  split; [exact EF|]. split.
  { unfold averaged_edges. rewrite E1, E2, AL. cbn [rbind]. rewrite AR. cbn [rbind fst snd]. rewrite (coord_zero dy Hdy). reflexivity. }
  assert (map fst fl = lefts frames /\ map fst fr = rights frames) as [M1 M2] by (unfold fl, fr, lefts, rights; rewrite !map_map; split; reflexivity).
  rewrite (half_div dy). rewrite M1 in PL. rewrite M2 in PR. split; [apply PL|]. split; [apply PR|]. split; [split; reflexivity|].
  assert (forall x o, lattice_map fields 0 0 dx dy o -> lattice_map fields (half dx) (half dy) dx dy (move (coord_on_grid x dx) (half dy) o)) as G.
  { intros x o H. apply (lattice_move _ _ _ _ (coord_on_grid x dx) (half dy)) in H. apply (lattice_rebase _ _ _ _ (qfloor (x / dx)) 0).
    replace (half dx + ZQ (qfloor (x / dx)) * dx) with (0 + coord_on_grid x dx) by (rewrite coord_grid by exact Hdx; ring).
    replace (half dy + ZQ 0 * dy) with (0 + half dy) by (rewrite ZQ_0; ring). exact H. }
  split; apply G; assumption.
Qed.

(** the combined map in terms of its records *)
Lemma combine_spec gx gy dx dy L R : 0 < dx -> 0 < dy -> lattice_map fields gx gy dx dy L -> lattice_map fields gx gy dx dy R ->
  exists out x0 y0 nx ny, combine_flow_data (dx, dy) (L, R) = Ok out /\ labels (data out) = fields /\ (0 < nx)%nat /\ (0 < ny)%nat /\
    f_shape (info out) = Some (Z.of_nat nx, Z.of_nat ny) /\ f_spacing (info out) = Some (dx, dy) /\
    regular fields (x0 - half dx) (y0 - half dy) dx dy nx ny (rows (data out)) /\
    (let both := rows (data L) ++ rows (data R) in
     list_min (map (fld fields "X") both) = Some x0 /\ list_max (map (fld fields "X") both) = Some (x0 + NQ (nx - 1) * dx) /\
     list_min (map (fld fields "Y") both) = Some y0 /\ list_max (map (fld fields "Y") both) = Some (y0 + NQ (ny - 1) * dy)) /\
    forall r, In r (rows (data out)) ->
      let vl l := value_at fields (rows (data L)) l (fld fields "X" r + half dx) (fld fields "Y" r + half dy) in
      let vr l := value_at fields (rows (data R)) l (fld fields "X" r + half dx) (fld fields "Y" r + half dy) in
      (forall l, In l ["N"; "M"]%string -> merged_mean (vl l) (vr l) (fld fields l r)) /\
      (forall l w, In (l, w) edge_weights -> merged_weighted (vl l) (vl w) (vr l) (vr w) (fld fields l r)).
Proof.
  intros Hdx Hdy HL HR. destruct (combine_ok gx gy dx dy Hdx Hdy L R HL HR) as (out & am & bm & NX & NY & EO & LO & IO & HNX & HNY & RG & HB & E1 & E2 & E3 & E4 & HV).
  exists out, (gx + ZQ am * dx), (gy + ZQ bm * dy), NX, NY. split; [exact EO|]. split; [exact LO|]. split; [exact HNX|]. split; [exact HNY|].
  rewrite IO. split; [reflexivity|]. split; [reflexivity|]. split; [exact RG|]. split.
  - cbv zeta.
    destruct (lattice_block gx gy dx dy L HL) as (al & bl & nl & ml & BL & _). destruct (lattice_block gx gy dx dy R HR) as (ar & br & nr & mr & BR & _).
    assert (forall r, In r (rows (data L) ++ rows (data R)) -> exists A B, (am <= A < am + Z.of_nat NX /\ bm <= B < bm + Z.of_nat NY)%Z /\ fld fields "X" r = gx + ZQ A * dx /\ fld fields "Y" r = gy + ZQ B * dy) as HIn.
    { intros r Hr. assert (exists d a b nx ny, (d = rows (data L) \/ d = rows (data R)) /\ block fields gx gy dx dy a b nx ny d /\ In r d) as (d & a & b & nx & ny & Hd & HBk & Hrd).
      { apply in_app_or in Hr. destruct Hr as [Hr|Hr]; [exists (rows (data L)), al, bl, nl, ml|exists (rows (data R)), ar, br, nr, mr]; auto. }
      destruct (block_in fields _ _ _ _ _ _ _ _ _ _ HBk Hrd) as (i & j & Hi & Hj & ->). specialize (HB d a b nx ny Hd HBk).
      destruct (block_row fields 0 1 gx gy dx dy eq_refl eq_refl _ _ _ _ _ i j HBk Hi Hj) as (_ & X & Y). exists (a + Z.of_nat i)%Z, (b + Z.of_nat j)%Z. rewrite fld_x, fld_y. split; [lia|]. split; assumption. }
    assert (forall d a b nx ny, (d = rows (data L) \/ d = rows (data R)) -> block fields gx gy dx dy a b nx ny d -> forall i j, (i < nx)%nat -> (j < ny)%nat ->
       exists r, In r (rows (data L) ++ rows (data R)) /\ fld fields "X" r = gx + ZQ (a + Z.of_nat i) * dx /\ fld fields "Y" r = gy + ZQ (b + Z.of_nat j) * dy) as HOut.
    { intros d a b nx ny Hd HBk i j Hi Hj. destruct (block_row fields 0 1 gx gy dx dy eq_refl eq_refl _ _ _ _ _ i j HBk Hi Hj) as (Hr & X & Y).
      exists (at_ (j * nx + i) d). split; [apply in_or_app; destruct Hd as [<- | <-]; auto|]. rewrite fld_x, fld_y. split; assumption. }
    assert (forall z d A A', 0 < d -> (A <= A')%Z -> z + ZQ A * d <= z + ZQ A' * d) as HM.
    { intros z d A A' Hd HA. apply ZQ_le in HA. pose proof (qmult_le_compat_l _ _ d (qc_lt_le _ _ Hd) HA) as K. clear -K. replace (ZQ A * d) with (d * ZQ A) by ring. replace (ZQ A' * d) with (d * ZQ A') by ring. generalize dependent (d * ZQ A). generalize (d * ZQ A'). intros; qlra'. }
    assert (forall z A n d, (0 < n)%nat -> z + ZQ A * d + NQ (n - 1) * d = z + ZQ (A + Z.of_nat n - 1) * d) as HS.
    { intros z A n d Hn. replace (A + Z.of_nat n - 1)%Z with (A + Z.of_nat (n - 1))%Z by lia. rewrite ZQ_add. unfold NQ. ring. }
    rewrite !HS by assumption. rewrite !list_min_spec, !list_max_spec.
    assert (forall d a b nx ny, block fields gx gy dx dy a b nx ny d -> (0 < nx)%nat /\ (0 < ny)%nat) as HP by (intros d a b nx ny (P1 & P2 & _); split; assumption).
    split; [|split; [|split]]; (split; [|intros v Hv; apply in_map_iff in Hv; destruct Hv as (r & <- & Hr); destruct (HIn r Hr) as (A & B & HAB & EX & EY); first [rewrite EX|rewrite EY]; apply HM; [assumption|lia]]).
    + destruct E1 as (d & a & b & nx & ny & Hd & HBk & Ea). destruct (HP _ _ _ _ _ HBk). destruct (HOut d a b nx ny Hd HBk 0%nat 0%nat) as (r & Hr & X & _); [assumption..|]. apply in_map_iff. exists r. split; [rewrite X; do 3 f_equal; lia|exact Hr].
    + destruct E2 as (d & a & b & nx & ny & Hd & HBk & Ea). destruct (HP _ _ _ _ _ HBk). destruct (HOut d a b nx ny Hd HBk (nx - 1)%nat 0%nat) as (r & Hr & X & _); [lia|assumption|]. apply in_map_iff. exists r. split; [rewrite X; do 3 f_equal; lia|exact Hr].
    + destruct E3 as (d & a & b & nx & ny & Hd & HBk & Ea). destruct (HP _ _ _ _ _ HBk). destruct (HOut d a b nx ny Hd HBk 0%nat 0%nat) as (r & Hr & _ & Y); [assumption..|]. apply in_map_iff. exists r. split; [rewrite Y; do 3 f_equal; lia|exact Hr].
    + destruct E4 as (d & a & b & nx & ny & Hd & HBk & Ea). destruct (HP _ _ _ _ _ HBk). destruct (HOut d a b nx ny Hd HBk 0%nat (ny - 1)%nat) as (r & Hr & _ & Y); [assumption|lia|]. apply in_map_iff. exists r. split; [rewrite Y; do 3 f_equal; lia|exact Hr].
  - intros r Hr. destruct (reg_in fields _ _ _ _ _ _ _ r RG Hr) as (i & j & Hi & Hj & ->). specialize (HV j i Hj Hi). cbv zeta in HV |- *.
    destruct RG as (_ & _ & RG). destruct (RG i j Hi Hj) as [X Y]. fold (at_ (j * NX + i) (rows (data out))) in X, Y.
    assert (fld fields "X" (at_ (j * NX + i) (rows (data out))) + half dx = gx + ZQ (am + Z.of_nat i) * dx) as -> by (rewrite X, ZQ_add; unfold NQ; ring).
    assert (fld fields "Y" (at_ (j * NX + i) (rows (data out))) + half dy = gy + ZQ (bm + Z.of_nat j) * dy) as -> by (rewrite Y, ZQ_add; unfold NQ; ring).
    exact HV.
Qed.

(** fusing *)
Lemma move_moved x f : (forall r, In r (rows (data f)) -> (1 < List.length r)%nat) -> Forall2 (moved fields x 0) (rows (data f)) (rows (data (move x 0 f))).
Proof. intros H. rewrite move_eq. cbn [data rows]. induction (rows (data f)) as [|r l IH]; simpl; constructor; [apply mv_moved, H; left; reflexivity|apply IH; intros; apply H; right; assumption]. Qed.
Lemma fuse_ok dx L R : rows (data L) <> [] -> rows (data R) <> [] -> (forall r, In r (rows (data L)) \/ In r (rows (data R)) -> (1 < List.length r)%nat) ->
  exists a b, fuse_edges dx (L, R) = Ok (move a 0 L, move b 0 R) /\
    list_max (map (fld fields "X") (rows (data L))) = Some (- half dx - a) /\ list_min (map (fld fields "X") (rows (data R))) = Some (half dx - b) /\
    list_max (map (fld fields "X") (rows (data (move a 0 L)))) = Some (- half dx) /\ list_min (map (fld fields "X") (rows (data (move b 0 R)))) = Some (half dx).
Proof.
  intros NL NR HLn. unfold fuse_edges. cbn [fst snd].
  destruct (list_max (map (col 0) (rows (data L)))) as [lm|] eqn:EL; [|apply list_max_none in EL; destruct (rows (data L)); [tauto|discriminate]].
  destruct (list_min (map (col 0) (rows (data R)))) as [rm|] eqn:ER; [|apply list_min_none in ER; destruct (rows (data R)); [tauto|discriminate]].
  cbn [of_option rbind]. change (1 / ZQ 2 * dx) with (half dx). exists (- (lm + half dx)), (- (rm - half dx)).
  split; [reflexivity|]. assert (map (fld fields "X") (rows (data L)) = map (col 0) (rows (data L)) /\ map (fld fields "X") (rows (data R)) = map (col 0) (rows (data R))) as [M1 M2] by (split; apply map_ext; apply fld_x).
  rewrite M1, M2. split; [rewrite EL; f_equal; ring|]. split; [rewrite ER; f_equal; ring|].
  assert (forall a f, (forall r, In r (rows (data f)) -> (1 < List.length r)%nat) -> map (fld fields "X") (rows (data (move a 0 f))) = map (fun v => v + a) (map (col 0) (rows (data f)))) as MM.
  { intros a f H. rewrite move_eq. cbn [data rows]. rewrite !map_map. apply map_ext_in. intros r Hr. rewrite fld_x. apply mv_x, H, Hr. }
  rewrite !MM by (intros; apply HLn; tauto). apply list_max_spec in EL. apply list_min_spec in ER. rewrite list_max_spec, list_min_spec. destruct EL as [L1 L2], ER as [R1 R2]. split; split.
  - apply in_map_iff. exists lm. split; [ring|exact L1].
  - intros y Hy. apply in_map_iff in Hy. destruct Hy as (v & <- & Hv). specialize (L2 v Hv). generalize (half dx). intros; qlra'.
  - apply in_map_iff. exists rm. split; [ring|exact R1].
  - intros y Hy. apply in_map_iff in Hy. destruct Hy as (v & <- & Hv). specialize (R2 v Hv). generalize (half dx). intros; qlra'.
Qed.
Lemma half_pos d : 0 < d -> 0 < half d.
Proof. intros H. unfold half. apply qmult_pos; [reflexivity|exact H]. Qed.
Lemma fuse_lattice dx dy L R : 0 < dx -> 0 < dy -> lattice_map fields (half dx) (half dy) dx dy L -> lattice_map fields (half dx) (half dy) dx dy R ->
  exists a b, fuse_edges dx (L, R) = Ok (move a 0 L, move b 0 R) /\ apart (rows (data (move a 0 L))) (rows (data (move b 0 R))) /\
    lattice_map fields (half dx) (half dy) dx dy (move a 0 L) /\ lattice_map fields (half dx) (half dy) dx dy (move b 0 R).
Proof.
  intros Hdx Hdy HL HR.
  destruct (lattice_block _ _ _ _ L HL) as (al & bl & nl & ml & BL & _). destruct (lattice_block _ _ _ _ R HR) as (ar & br & nr & mr & BR & _).
  assert (forall r, In r (rows (data L)) \/ In r (rows (data R)) -> (1 < List.length r)%nat) as HLn.
  { intros r [Hr|Hr]; [destruct BL as (_ & _ & _ & B & _)|destruct BR as (_ & _ & _ & B & _)]; rewrite (B r Hr); simpl; lia. }
  destruct (fuse_ok dx L R) as (a & b & E & ML & MR & XL & XR); [apply (block_nonempty _ _ _ _ _ _ _ _ _ _ BL)|apply (block_nonempty _ _ _ _ _ _ _ _ _ _ BR)|exact HLn|].
  exists a, b. split; [exact E|]. apply list_max_spec in XL. apply list_min_spec in XR. split; [|split].
  - intros r r' Hr Hr' [EX _]. assert (fld fields "X" r <= - half dx) by (apply XL; apply in_map; exact Hr). assert (half dx <= fld fields "X" r') by (apply XR; apply in_map; exact Hr').
    pose proof (half_pos dx Hdx). rewrite EX in H. clear -H H0 H1. generalize dependent (half dx). generalize (fld fields "X" r'). intros; qlra.
  - pose proof (block_max_x fields 0 1 _ _ _ _ eq_refl eq_refl Hdx _ _ _ _ _ BL) as K. unfold col_max in K.
    assert (map (fld fields "X") (rows (data L)) = map (col 0) (rows (data L))) as M1 by (apply map_ext; apply fld_x). rewrite M1 in ML. rewrite ML in K. cbn [of_option] in K.
    assert (- half dx - a = half dx + ZQ (al + Z.of_nat nl - 1) * dx) as K' by congruence. clear K.
    apply (lattice_rebase _ _ _ _ (- (al + Z.of_nat nl - 1) - 1) 0). apply (lattice_move _ _ _ _ a 0) in HL.
    replace (half dx + ZQ (- (al + Z.of_nat nl - 1) - 1) * dx) with (half dx + a); [replace (half dy + ZQ 0 * dy) with (half dy + 0) by (rewrite ZQ_0; ring); exact HL|].
    rewrite ZQ_sub, ZQ_opp, ZQ_1. transitivity (half dx + (- half dx - (half dx + ZQ (al + Z.of_nat nl - 1) * dx))); [rewrite <- K'; ring|]. transitivity (half dx - ZQ (al + Z.of_nat nl - 1) * dx - (half dx + half dx)); [ring|]. rewrite <- half_half. ring.
  - pose proof (block_min_x fields 0 1 _ _ _ _ eq_refl eq_refl Hdx _ _ _ _ _ BR) as K. unfold col_min in K.
    assert (map (fld fields "X") (rows (data R)) = map (col 0) (rows (data R))) as M1 by (apply map_ext; apply fld_x). rewrite M1 in MR. rewrite MR in K. cbn [of_option] in K.
    assert (half dx - b = half dx + ZQ ar * dx) as K' by congruence. clear K.
    apply (lattice_rebase _ _ _ _ (- ar) 0). apply (lattice_move _ _ _ _ b 0) in HR.
    replace (half dx + ZQ (- ar) * dx) with (half dx + b); [replace (half dy + ZQ 0 * dy) with (half dy + 0) by (rewrite ZQ_0; ring); exact HR|].
    rewrite ZQ_opp. transitivity (half dx + (half dx - (half dx + ZQ ar * dx))); [rewrite <- K'; ring|]. ring.
Qed.
