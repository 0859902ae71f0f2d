(** Averaging maps of different extents. *)
From Coq Require Import String Permutation.
From Verif.Base Require Import QcX Res Np Sums ListX.
From Verif.Model Require Import Flow GridAverage.
From Verif.Spec Require Import FlowSpec GridSpec.
From Verif.Proofs Require Import FlowP.
Local Open Scope list_scope.

Lemma in_nth_error {A} (x : A) l : In x l -> exists k, nth_error l k = Some x.
Proof. apply In_nth_error. Qed.

(** index arithmetic of row-major storage *)
Lemma rm_lt nx ny i j : (i < nx)%nat -> (j < ny)%nat -> (j * nx + i < ny * nx)%nat.
Proof. intros. nia. Qed.
Lemma rm_div nx i j : (i < nx)%nat -> ((j * nx + i) / nx = j)%nat.
Proof. intros. rewrite Nat.add_comm, Nat.div_add by lia. rewrite Nat.div_small by lia. lia. Qed.
Lemma rm_mod nx i j : (i < nx)%nat -> ((j * nx + i) mod nx = i)%nat.
Proof. intros. rewrite Nat.add_comm, Nat.mod_add by lia. apply Nat.mod_small. lia. Qed.
Lemma rm_split nx ny p : (p < ny * nx)%nat -> exists i j, (i < nx)%nat /\ (j < ny)%nat /\ p = (j * nx + i)%nat.
Proof.
  intros H. assert (nx <> 0)%nat by (intros ->; lia). exists (p mod nx)%nat, (p / nx)%nat.
  split; [apply Nat.mod_upper_bound; lia|]. split; [apply Nat.div_lt_upper_bound; lia|].
  pose proof (Nat.div_mod p nx). lia.
Qed.

Lemma lattice_inj g d a b : 0 < d -> g + ZQ a * d = g + ZQ b * d -> a = b.
Proof.
  intros Hd H. assert ((ZQ a - ZQ b) * d = 0) as E by (replace ((ZQ a - ZQ b) * d) with ((g + ZQ a * d) - (g + ZQ b * d)) by ring; rewrite H; ring).
  apply Qcmult_integral in E. destruct E as [E|E].
  - rewrite <- ZQ_sub in E. change 0 with (ZQ 0) in E. apply ZQ_inj in E. lia.
  - subst d. exfalso. apply (Qclt_not_eq _ _ Hd). reflexivity.
Qed.
Lemma lattice_le g d a b : 0 < d -> g + ZQ a * d <= g + ZQ b * d -> (a <= b)%Z.
Proof.
  intros Hd H. destruct (Z_le_gt_dec a b) as [|G]; [assumption|exfalso].
  assert (ZQ b + 1 <= ZQ a) as L. { rewrite <- ZQ_1, <- ZQ_add. apply ZQ_le. lia. }
  pose proof (qmult_le_compat_l _ _ d (qc_lt_le _ _ Hd) L) as L'.
  replace (d * (ZQ b + 1)) with (ZQ b * d + d) in L' by ring. replace (d * ZQ a) with (ZQ a * d) in L' by ring.
  generalize dependent (ZQ a * d). generalize dependent (ZQ b * d). intros; qlra.
Qed.
Lemma lattice_mono g d a b : 0 < d -> (a <= b)%Z -> g + ZQ a * d <= g + ZQ b * d.
Proof.
  intros Hd H. apply ZQ_le in H. pose proof (qmult_le_compat_l _ _ d (qc_lt_le _ _ Hd) H) as L'.
  replace (d * ZQ b) with (ZQ b * d) in L' by ring. replace (d * ZQ a) with (ZQ a * d) in L' by ring.
  generalize dependent (ZQ a * d). generalize dependent (ZQ b * d). intros; qlra'.
Qed.
Lemma lattice_round g d a b : 0 < d -> qround (((g + ZQ b * d) - (g + ZQ a * d)) / d) = (b - a)%Z.
Proof.
  intros Hd. replace (((g + ZQ b * d) - (g + ZQ a * d)) / d) with (ZQ (b - a)); [apply qround_ZQ|].
  rewrite ZQ_sub. field. apply qpos_nz. assumption.
Qed.
Lemma lattice_shift g d a i : g + ZQ a * d + NQ i * d = g + ZQ (a + Z.of_nat i) * d.
Proof. rewrite ZQ_add. unfold NQ. ring. Qed.

Lemma fld_col ls l k r : index_of l ls = Some k -> fld ls l r = col k r.
Proof. intros H. unfold fld. rewrite H. reflexivity. Qed.

Lemma spacing_close_refl s : spacing_close s s = true.
Proof.
  unfold spacing_close. assert (forall x, isclose (Q2Qc (1 # 100000000)) (Q2Qc (1 # 100000)) x x = true) as H.
  { intros x. unfold isclose. apply qle_true. replace (x - x) with 0 by ring. pose proof (qabs_nonneg x) as H. change (qabs 0) with 0.
    generalize dependent (qabs x). intros; qlra'. }
  rewrite !H. reflexivity.
Qed.

Section Lattice.
Variables (ls : list string) (kx ky : nat) (gx gy dx dy : Qc).
Hypothesis HX : index_of "X"%string ls = Some kx.
Hypothesis HY : index_of "Y"%string ls = Some ky.
Hypothesis Hdx : 0 < dx.
Hypothesis Hdy : 0 < dy.

(** records at integer positions *)
Definition block (a b : Z) (nx ny : nat) (rows : list record) : Prop :=
  (0 < nx)%nat /\ (0 < ny)%nat /\ regular ls (gx + ZQ a * dx) (gy + ZQ b * dy) dx dy nx ny rows.

Lemma block_row a b nx ny rows i j : block a b nx ny rows -> (i < nx)%nat -> (j < ny)%nat ->
  let r := at_ (j * nx + i) rows in
  In r rows /\ col kx r = gx + ZQ (a + Z.of_nat i) * dx /\ col ky r = gy + ZQ (b + Z.of_nat j) * dy.
Proof.
  intros (_ & _ & H1 & _ & H3) Hi Hj r. destruct (H3 i j Hi Hj) as [A B].
  split; [apply nth_In; rewrite H1; apply rm_lt; assumption|].
  rewrite <- !lattice_shift. rewrite (fld_col _ _ _ _ HX) in A. rewrite (fld_col _ _ _ _ HY) in B. auto.
Qed.
Lemma block_in a b nx ny rows r : block a b nx ny rows -> In r rows ->
  exists i j, (i < nx)%nat /\ (j < ny)%nat /\ r = at_ (j * nx + i) rows.
Proof.
  intros (_ & _ & H1 & _ & _) H. destruct (In_nth _ _ [] H) as (p & Hp & E).
  rewrite H1 in Hp. destruct (rm_split _ _ _ Hp) as (i & j & Hi & Hj & ->). exists i, j. auto.
Qed.

Lemma block_min_x a b nx ny rows : block a b nx ny rows -> col_min kx rows = Ok (gx + ZQ a * dx).
Proof.
  intros B. unfold col_min. assert (list_min (map (col kx) rows) = Some (gx + ZQ a * dx)) as ->; [|reflexivity].
  apply list_min_spec. destruct B as (Hx & Hy & B'). pose proof (conj Hx (conj Hy B')) as B. split.
  - destruct (block_row a b nx ny rows 0 0 B Hx Hy) as (I & E & _). apply in_map_iff. exists (at_ (0 * nx + 0) rows).
    split; [|assumption]. rewrite E. simpl. replace (a + 0)%Z with a by lia. reflexivity.
  - intros y Hyy. apply in_map_iff in Hyy. destruct Hyy as (r & <- & Hr).
    destruct (block_in a b nx ny rows r B Hr) as (i & j & Hi & Hj & ->).
    destruct (block_row a b nx ny rows i j B Hi Hj) as (_ & -> & _). apply lattice_mono; [assumption|lia].
Qed.
Lemma block_min_y a b nx ny rows : block a b nx ny rows -> col_min ky rows = Ok (gy + ZQ b * dy).
Proof.
  intros B. unfold col_min. assert (list_min (map (col ky) rows) = Some (gy + ZQ b * dy)) as ->; [|reflexivity].
  apply list_min_spec. destruct B as (Hx & Hy & B'). pose proof (conj Hx (conj Hy B')) as B. split.
  - destruct (block_row a b nx ny rows 0 0 B Hx Hy) as (I & _ & E). apply in_map_iff. exists (at_ (0 * nx + 0) rows).
    split; [|assumption]. rewrite E. simpl. replace (b + 0)%Z with b by lia. reflexivity.
  - intros y Hyy. apply in_map_iff in Hyy. destruct Hyy as (r & <- & Hr).
    destruct (block_in a b nx ny rows r B Hr) as (i & j & Hi & Hj & ->).
    destruct (block_row a b nx ny rows i j B Hi Hj) as (_ & _ & ->). apply lattice_mono; [assumption|lia].
Qed.
Lemma block_max_x a b nx ny rows : block a b nx ny rows -> col_max kx rows = Ok (gx + ZQ (a + Z.of_nat nx - 1) * dx).
Proof.
  intros B. unfold col_max. assert (list_max (map (col kx) rows) = Some (gx + ZQ (a + Z.of_nat nx - 1) * dx)) as ->; [|reflexivity].
  apply list_max_spec. destruct B as (Hx & Hy & B'). pose proof (conj Hx (conj Hy B')) as B. split.
  - assert (nx - 1 < nx)%nat as Hl by lia.
    destruct (block_row a b nx ny rows (nx - 1) 0 B Hl Hy) as (I & E & _). apply in_map_iff. exists (at_ (0 * nx + (nx - 1)) rows).
    split; [|assumption]. rewrite E. do 3 f_equal. lia.
  - intros y Hyy. apply in_map_iff in Hyy. destruct Hyy as (r & <- & Hr).
    destruct (block_in a b nx ny rows r B Hr) as (i & j & Hi & Hj & ->).
    destruct (block_row a b nx ny rows i j B Hi Hj) as (_ & -> & _). apply lattice_mono; [assumption|lia].
Qed.
Lemma block_max_y a b nx ny rows : block a b nx ny rows -> col_max ky rows = Ok (gy + ZQ (b + Z.of_nat ny - 1) * dy).
Proof.
  intros B. unfold col_max. assert (list_max (map (col ky) rows) = Some (gy + ZQ (b + Z.of_nat ny - 1) * dy)) as ->; [|reflexivity].
  apply list_max_spec. destruct B as (Hx & Hy & B'). pose proof (conj Hx (conj Hy B')) as B. split.
  - assert (ny - 1 < ny)%nat as Hl by lia.
    destruct (block_row a b nx ny rows 0 (ny - 1) B Hx Hl) as (I & _ & E). apply in_map_iff. exists (at_ ((ny - 1) * nx + 0) rows).
    split; [|assumption]. rewrite E. do 3 f_equal. lia.
  - intros y Hyy. apply in_map_iff in Hyy. destruct Hyy as (r & <- & Hr).
    destruct (block_in a b nx ny rows r B Hr) as (i & j & Hi & Hj & ->).
    destruct (block_row a b nx ny rows i j B Hi Hj) as (_ & _ & ->). apply lattice_mono; [assumption|lia].
Qed.

(** value at a lattice point *)
Lemma block_value a b nx ny rows l k A B : block a b nx ny rows -> index_of l ls = Some k ->
  value_at ls rows l (gx + ZQ A * dx) (gy + ZQ B * dy) =
  if ((a <=? A) && (A <? a + Z.of_nat nx) && (b <=? B) && (B <? b + Z.of_nat ny))%Z%bool
  then col k (at_ (Z.to_nat (B - b) * nx + Z.to_nat (A - a)) rows) else 0.
Proof.
  intros Hb Hl. unfold value_at.
  set (P := fun r => (qeq (fld ls "X" r) (gx + ZQ A * dx) && qeq (fld ls "Y" r) (gy + ZQ B * dy))%bool).
  assert (forall i j, (i < nx)%nat -> (j < ny)%nat -> P (at_ (j * nx + i) rows) = true <-> (A = a + Z.of_nat i /\ B = b + Z.of_nat j)%Z) as HP.
  { intros i j Hi Hj. destruct (block_row a b nx ny rows i j Hb Hi Hj) as (_ & E1 & E2). unfold P.
    rewrite (fld_col _ _ _ _ HX), (fld_col _ _ _ _ HY), E1, E2, andb_true_iff, !qeq_true. split.
    - intros [H1 H2]. apply lattice_inj in H1; [|assumption]. apply lattice_inj in H2; [|assumption]. lia.
    - intros [-> ->]. auto. }
  destruct (find P rows) as [r|] eqn:F.
  - apply find_some in F. destruct F as [Hr HPr].
    destruct (block_in a b nx ny rows r Hb Hr) as (i & j & Hi & Hj & ->).
    apply HP in HPr; [|assumption|assumption]. destruct HPr as [-> ->].
    rewrite (fld_col _ _ _ _ Hl).
    replace ((a <=? a + Z.of_nat i) && (a + Z.of_nat i <? a + Z.of_nat nx) && (b <=? b + Z.of_nat j) && (b + Z.of_nat j <? b + Z.of_nat ny))%Z%bool with true.
    + f_equal. f_equal. replace (a + Z.of_nat i - a)%Z with (Z.of_nat i) by lia. replace (b + Z.of_nat j - b)%Z with (Z.of_nat j) by lia.
      rewrite !Nat2Z.id. reflexivity.
    + symmetry. rewrite !andb_true_iff, !Z.leb_le, !Z.ltb_lt. lia.
  - destruct (_ && _ && _ && _)%bool eqn:C; [|reflexivity]. exfalso.
    rewrite !andb_true_iff, !Z.leb_le, !Z.ltb_lt in C. destruct C as [[[C1 C2] C3] C4].
    assert (Z.to_nat (A - a) < nx)%nat as Hi by lia. assert (Z.to_nat (B - b) < ny)%nat as Hj by lia.
    destruct (block_row a b nx ny rows _ _ Hb Hi Hj) as (Hin & _ & _).
    pose proof (find_none _ _ F _ Hin) as N. rewrite (proj2 (HP _ _ Hi Hj)) in N; [discriminate|]. lia.
Qed.

Definition is_block (d : list record) : Prop := exists a b nx ny, block a b nx ny d.

Lemma block_nonempty a b nx ny d : block a b nx ny d -> d <> [].
Proof. intros (H1 & H2 & H3 & _) ->. simpl in H3. nia. Qed.
Lemma filter_blocks dl : Forall is_block dl -> filter (fun d => negb (Nat.eqb (List.length d) 0)) dl = dl.
Proof.
  induction 1 as [|d dl (a & b & nx & ny & Hd) _ IH]; [reflexivity|]. simpl. rewrite IH.
  destruct d; [exfalso; eapply block_nonempty; eauto|reflexivity].
Qed.

Lemma rmapM_total {A B} (f : A -> res B) l : (forall x, In x l -> exists y, f x = Ok y) -> exists ys, rmapM f l = Ok ys.
Proof.
  induction l as [|x l IH]; intros H; simpl; [eauto|]. destruct (H x) as (y & ->); [simpl; auto|]. simpl.
  destruct IH as (ys & ->); [intros; apply H; simpl; auto|]. simpl. eauto.
Qed.
Lemma rmapM_in {A B} (f : A -> res B) l ys : rmapM f l = Ok ys -> forall y, In y ys <-> exists x, In x l /\ f x = Ok y.
Proof.
  revert ys; induction l as [|x l IH]; simpl; intros ys H y.
  - injection H as <-. split; [intros []|intros (x & [] & _)].
  - destruct (f x) eqn:E; simpl in H; [|discriminate]. destruct (rmapM f l) eqn:E2; simpl in H; [|discriminate].
    injection H as <-. simpl. rewrite (IH _ eq_refl). split.
    + intros [<-|(x' & Hx & Hy)]; eauto.
    + intros (x' & [<-|Hx] & Hy); [left; congruence|right; eauto].
Qed.

(* the extreme of a quantity which is a lattice point for every set *)
Lemma lattice_min (f : list record -> res Qc) g d dl (P : list record -> Z -> Prop) : 0 < d -> dl <> [] ->
  (forall x, In x dl -> exists a, P x a /\ f x = Ok (g + ZQ a * d)) ->
  exists ys m, rmapM f dl = Ok ys /\ list_min ys = Some (g + ZQ m * d) /\
    (exists x, In x dl /\ P x m /\ f x = Ok (g + ZQ m * d)) /\
    (forall x a, In x dl -> f x = Ok (g + ZQ a * d) -> (m <= a)%Z).
Proof.
  intros Hd Hne H. destruct (rmapM_total f dl) as (ys & E). { intros x Hx. destruct (H x Hx) as (a & _ & Ha). eauto. }
  pose proof (rmapM_in f dl ys E) as HI. destruct (list_min ys) as [m|] eqn:M.
  - apply list_min_spec in M. destruct M as [M1 M2]. apply HI in M1. destruct M1 as (x & Hx & Hm).
    destruct (H x Hx) as (a & Pa & Ha). assert (m = g + ZQ a * d) as -> by congruence.
    exists ys, a. split; [assumption|]. split; [|split; eauto].
    + apply list_min_spec. split; [apply HI; eauto|assumption].
    + intros x' a' Hx' Ha'. apply (lattice_le g d); [assumption|]. apply M2. apply HI. eauto.
  - apply list_min_none in M. subst ys. destruct dl as [|x dl]; [congruence|]. simpl in E.
    destruct (f x); simpl in E; [|discriminate]. destruct (rmapM f dl); simpl in E; discriminate.
Qed.
Lemma lattice_max (f : list record -> res Qc) g d dl (P : list record -> Z -> Prop) : 0 < d -> dl <> [] ->
  (forall x, In x dl -> exists a, P x a /\ f x = Ok (g + ZQ a * d)) ->
  exists ys m, rmapM f dl = Ok ys /\ list_max ys = Some (g + ZQ m * d) /\
    (exists x, In x dl /\ P x m /\ f x = Ok (g + ZQ m * d)) /\
    (forall x a, In x dl -> f x = Ok (g + ZQ a * d) -> (a <= m)%Z).
Proof.
  intros Hd Hne H. destruct (rmapM_total f dl) as (ys & E). { intros x Hx. destruct (H x Hx) as (a & _ & Ha). eauto. }
  pose proof (rmapM_in f dl ys E) as HI. destruct (list_max ys) as [m|] eqn:M.
  - apply list_max_spec in M. destruct M as [M1 M2]. apply HI in M1. destruct M1 as (x & Hx & Hm).
    destruct (H x Hx) as (a & Pa & Ha). assert (m = g + ZQ a * d) as -> by congruence.
    exists ys, a. split; [assumption|]. split; [|split; eauto].
    + apply list_max_spec. split; [apply HI; eauto|assumption].
    + intros x' a' Hx' Ha'. apply (lattice_le g d); [assumption|]. apply M2. apply HI. eauto.
  - apply list_max_none in M. subst ys. destruct dl as [|x dl]; [congruence|]. simpl in E.
    destruct (f x); simpl in E; [|discriminate]. destruct (rmapM f dl); simpl in E; discriminate.
Qed.

Definition pos_x (A : Z) : Qc := gx + ZQ A * dx.
Definition pos_y (B : Z) : Qc := gy + ZQ B * dy.
(* the empty combined grid with first lattice point (am, bm) *)
Definition empty_grid (am bm : Z) (NX NY : nat) : cgrid :=
  mkGrid (grid NY NX (fun j i => blank (List.length ls) kx ky (pos_x (am + Z.of_nat i)) (pos_y (bm + Z.of_nat j)))) NX NY (pos_x am) (pos_y bm).

Lemma combined_grid dl : dl <> [] -> Forall is_block dl -> exists am bm NX NY,
  get_combined_grid kx ky (List.length ls) dx dy dl = Ok (empty_grid am bm NX NY) /\ (0 < NX)%nat /\ (0 < NY)%nat /\
  (forall d a b nx ny, In d dl -> block a b nx ny d ->
     (am <= a /\ a + Z.of_nat nx <= am + Z.of_nat NX /\ bm <= b /\ b + Z.of_nat ny <= bm + Z.of_nat NY)%Z) /\
  (exists d a b nx ny, In d dl /\ block a b nx ny d /\ a = am) /\
  (exists d a b nx ny, In d dl /\ block a b nx ny d /\ (a + Z.of_nat nx = am + Z.of_nat NX)%Z) /\
  (exists d a b nx ny, In d dl /\ block a b nx ny d /\ b = bm) /\
  (exists d a b nx ny, In d dl /\ block a b nx ny d /\ (b + Z.of_nat ny = bm + Z.of_nat NY)%Z).
Proof.
  intros Hne HF. rewrite Forall_forall in HF.
  destruct (lattice_min (col_min kx) gx dx dl (fun d a => exists b nx ny, block a b nx ny d) Hdx Hne) as (y1 & am & E1 & M1 & (d1 & I1 & (b1 & nx1 & ny1 & B1) & _) & L1).
  { intros d Hd. destruct (HF d Hd) as (a & b & nx & ny & B). exists a. split; [eauto|]. eapply block_min_x; eauto. }
  destruct (lattice_max (col_max kx) gx dx dl (fun d m => exists a b nx ny, block a b nx ny d /\ m = (a + Z.of_nat nx - 1)%Z) Hdx Hne) as (y2 & aM & E2 & M2 & (d2 & I2 & (a2 & b2 & nx2 & ny2 & B2 & X2) & _) & L2).
  { intros d Hd. destruct (HF d Hd) as (a & b & nx & ny & B). exists (a + Z.of_nat nx - 1)%Z. split; [eauto 6|]. eapply block_max_x; eauto. }
  destruct (lattice_min (col_min ky) gy dy dl (fun d b => exists a nx ny, block a b nx ny d) Hdy Hne) as (y3 & bm & E3 & M3 & (d3 & I3 & (a3 & nx3 & ny3 & B3) & _) & L3).
  { intros d Hd. destruct (HF d Hd) as (a & b & nx & ny & B). exists b. split; [eauto|]. eapply block_min_y; eauto. }
  destruct (lattice_max (col_max ky) gy dy dl (fun d m => exists a b nx ny, block a b nx ny d /\ m = (b + Z.of_nat ny - 1)%Z) Hdy Hne) as (y4 & bM & E4 & M4 & (d4 & I4 & (a4 & b4 & nx4 & ny4 & B4 & X4) & _) & L4).
  { intros d Hd. destruct (HF d Hd) as (a & b & nx & ny & B). exists (b + Z.of_nat ny - 1)%Z. split; [eauto 6|]. eapply block_max_y; eauto. }
  assert (am <= aM)%Z as LX. { pose proof (L1 d2 a2 I2 (block_min_x _ _ _ _ _ B2)). destruct B2 as (? & _). lia. }
  assert (bm <= bM)%Z as LY. { pose proof (L3 d4 b4 I4 (block_min_y _ _ _ _ _ B4)). destruct B4 as (_ & ? & _). lia. }
  exists am, bm, (Z.to_nat (aM - am + 1)), (Z.to_nat (bM - bm + 1)).
  split; [|split; [lia|split; [lia|split; [|split; [|split; [|split]]]]]].
  - unfold get_combined_grid. rewrite filter_blocks by (apply Forall_forall; assumption).
    rewrite E1. cbn [rbind]. rewrite E2. cbn [rbind]. rewrite E3. cbn [rbind]. rewrite E4. cbn [rbind].
    rewrite M1, M2, M3, M4. cbn [rbind of_option]. rewrite !lattice_round by assumption.
    unfold empty_grid. do 2 f_equal. apply grid_ext. intros j i Hj Hi. f_equal.
    + unfold pos_x. rewrite <- lattice_shift. ring.
    + unfold pos_y. rewrite <- lattice_shift. ring.
  - intros d a b nx ny Hd B.
    pose proof (L1 d a Hd (block_min_x _ _ _ _ _ B)). pose proof (L2 d _ Hd (block_max_x _ _ _ _ _ B)).
    pose proof (L3 d b Hd (block_min_y _ _ _ _ _ B)). pose proof (L4 d _ Hd (block_max_y _ _ _ _ _ B)). lia.
  - exists d1, am, b1, nx1, ny1. auto.
  - exists d2, a2, b2, nx2, ny2. split; [assumption|split; [assumption|lia]].
  - exists d3, a3, bm, nx3, ny3. auto.
  - exists d4, a4, b4, nx4, ny4. split; [assumption|split; [assumption|lia]].
Qed.

Hypothesis Hxy : kx <> ky.
Let Hkx : (kx < List.length ls)%nat.
Proof. apply nth_error_Some. rewrite (index_of_spec _ _ _ HX). discriminate. Qed.
Let Hky : (ky < List.length ls)%nat.
Proof. apply nth_error_Some. rewrite (index_of_spec _ _ _ HY). discriminate. Qed.

Lemma col_set_other k k' v r : k <> k' -> col k (set_col k' v r) = col k r.
Proof.
  unfold col. revert k k'; induction r as [|y r IH]; intros [|k] [|k'] H; simpl; auto; try congruence.
Qed.
Lemma blank_length x y : List.length (blank (List.length ls) kx ky x y) = List.length ls.
Proof. unfold blank. rewrite !set_col_length, repeat_length. reflexivity. Qed.
Lemma blank_x x y : col kx (blank (List.length ls) kx ky x y) = x.
Proof. unfold blank. rewrite col_set_other by assumption. apply col_set_col. rewrite repeat_length. exact Hkx. Qed.
Lemma blank_y x y : col ky (blank (List.length ls) kx ky x y) = y.
Proof. unfold blank. apply col_set_col. rewrite set_col_length, repeat_length. exact Hky. Qed.
Lemma blank_other x y k : k <> kx -> k <> ky -> col k (blank (List.length ls) kx ky x y) = 0.
Proof.
  intros. unfold blank. rewrite !col_set_other by assumption. unfold col.
  destruct (Nat.lt_ge_cases k (List.length ls)) as [H1|H1]; [apply nth_repeat|apply nth_overflow; rewrite repeat_length; assumption].
Qed.

(** grids given by functions are blocks *)
Lemma grid_block am bm NX NY (g : nat -> nat -> record) : (0 < NX)%nat -> (0 < NY)%nat ->
  (forall j i, (j < NY)%nat -> (i < NX)%nat -> List.length (g j i) = List.length ls /\
     col kx (g j i) = pos_x (am + Z.of_nat i) /\ col ky (g j i) = pos_y (bm + Z.of_nat j)) ->
  block am bm NX NY (grid NY NX g).
Proof.
  intros H1 H2 H. split; [assumption|split; [assumption|]]. split; [apply grid_length|]. split.
  - intros r Hr. apply in_grid in Hr. destruct Hr as (j & i & Hj & Hi & ->). apply H; assumption.
  - intros i j Hi Hj. rewrite grid_nth by assumption. cbv zeta. rewrite (fld_col _ _ _ _ HX), (fld_col _ _ _ _ HY).
    destruct (H j i Hj Hi) as (_ & -> & ->). unfold pos_x, pos_y. rewrite !lattice_shift. auto.
Qed.
Lemma empty_grid_block am bm NX NY : (0 < NX)%nat -> (0 < NY)%nat -> block am bm NX NY (g_rows (empty_grid am bm NX NY)).
Proof.
  intros. apply grid_block; try assumption. intros j i _ _. rewrite blank_length, blank_x, blank_y. auto.
Qed.

(* the projection of one block *)
Definition projected (am bm a b : Z) (nx ny : nat) (d : list record) (j i : nat) : record :=
  if ((a <=? am + Z.of_nat i) && (am + Z.of_nat i <? a + Z.of_nat nx) && (b <=? bm + Z.of_nat j) && (bm + Z.of_nat j <? b + Z.of_nat ny))%Z%bool
  then at_ (Z.to_nat (bm + Z.of_nat j - b) * nx + Z.to_nat (am + Z.of_nat i - a)) d
  else blank (List.length ls) kx ky (pos_x (am + Z.of_nat i)) (pos_y (bm + Z.of_nat j)).

Lemma transfer_ok am bm NX NY a b nx ny d : (0 < NX)%nat -> (0 < NY)%nat -> block a b nx ny d ->
  (am <= a /\ a + Z.of_nat nx <= am + Z.of_nat NX /\ bm <= b /\ b + Z.of_nat ny <= bm + Z.of_nat NY)%Z ->
  transfer_data kx ky dx dy (empty_grid am bm NX NY) d nx ny = Ok (grid NY NX (projected am bm a b nx ny d)).
Proof.
  intros HNX HNY B (L1 & L2 & L3 & L4). unfold transfer_data.
  rewrite (block_min_x _ _ _ _ _ (empty_grid_block am bm NX NY HNX HNY)), (block_min_y _ _ _ _ _ (empty_grid_block am bm NX NY HNX HNY)).
  rewrite (block_min_x _ _ _ _ _ B), (block_min_y _ _ _ _ _ B). cbn [rbind].
  replace (- (gx + ZQ am * dx - (gx + ZQ a * dx)) / dx) with ((gx + ZQ a * dx - (gx + ZQ am * dx)) / dx) by (field; apply qpos_nz; assumption).
  replace (- (gy + ZQ bm * dy - (gy + ZQ b * dy)) / dy) with ((gy + ZQ b * dy - (gy + ZQ bm * dy)) / dy) by (field; apply qpos_nz; assumption).
  rewrite !lattice_round by assumption. cbn [g_nx g_ny empty_grid].
  rewrite !Z.max_l by lia.
  replace (Nat.min (Z.to_nat (b - bm) + ny) NY - Nat.min (Z.to_nat (b - bm)) NY)%nat with ny by lia.
  replace (Nat.min (Z.to_nat (a - am) + nx) NX - Nat.min (Z.to_nat (a - am)) NX)%nat with nx by lia.
  destruct B as (Bx & By & Bl & _ & _). rewrite Bl, !Nat.eqb_refl. cbn [negb orb andb].
  f_equal. apply grid_ext. intros j i Hj Hi. unfold projected.
  set (c1 := (_ && _ && _ && _)%bool). set (c2 := (_ && _ && _ && _)%bool).
  assert (c1 = c2) as ->.
  { unfold c1, c2. apply eq_true_iff_eq. rewrite !andb_true_iff, !Z.leb_le, !Z.ltb_lt, !Nat.leb_le, !Nat.ltb_lt. lia. }
  destruct c2 eqn:C.
  - f_equal. unfold c2 in C. rewrite !andb_true_iff, !Z.leb_le, !Z.ltb_lt in C. repeat f_equal; lia.
  - cbn [g_rows empty_grid]. unfold at_. rewrite grid_nth by assumption. reflexivity.
Qed.

Lemma projected_row am bm a b nx ny d j i : block a b nx ny d ->
  let r := projected am bm a b nx ny d j i in
  List.length r = List.length ls /\ col kx r = pos_x (am + Z.of_nat i) /\ col ky r = pos_y (bm + Z.of_nat j) /\
  forall l k, index_of l ls = Some k -> k <> kx -> k <> ky ->
    col k r = value_at ls d l (pos_x (am + Z.of_nat i)) (pos_y (bm + Z.of_nat j)).
Proof.
  intros B r. assert (forall l k, index_of l ls = Some k -> k <> kx -> k <> ky ->
    col k r = value_at ls d l (pos_x (am + Z.of_nat i)) (pos_y (bm + Z.of_nat j))) as HV.
  { intros l k Hl H1 H2. unfold pos_x, pos_y. rewrite (block_value a b nx ny d l k _ _ B Hl). unfold r, projected.
    destruct (_ && _ && _ && _)%bool; [reflexivity|]. apply blank_other; assumption. }
  split; [|split; [|split; [|exact HV]]]; clear HV; unfold r, projected;
    destruct (_ && _ && _ && _)%bool eqn:C; try (apply blank_length || apply blank_x || apply blank_y);
    rewrite !andb_true_iff, !Z.leb_le, !Z.ltb_lt in C; destruct C as [[[C1 C2] C3] C4];
    assert (Z.to_nat (am + Z.of_nat i - a) < nx)%nat as Hi by lia; assert (Z.to_nat (bm + Z.of_nat j - b) < ny)%nat as Hj by lia;
    destruct (block_row a b nx ny d _ _ B Hi Hj) as (I & E1 & E2).
  - destruct B as (_ & _ & _ & BL & _). apply BL. exact I.
  - rewrite E1. unfold pos_x. do 3 f_equal. lia.
  - rewrite E2. unfold pos_y. do 3 f_equal. lia.
Qed.

(** averaging *)
Lemma weigh_length recs p r lw : List.length (weigh recs p r lw) = List.length r.
Proof. destruct lw. apply set_col_length. Qed.
Lemma fold_weigh_length recs p ws : forall r, List.length (fold_left (weigh recs p) ws r) = List.length r.
Proof. induction ws as [|lw ws IH]; intros r; simpl; [reflexivity|]. rewrite IH. apply weigh_length. Qed.
Lemma fold_weigh_other recs p ws k : ~ In k (map fst ws) -> forall r, col k (fold_left (weigh recs p) ws r) = col k r.
Proof.
  induction ws as [|[l w] ws IH]; intros H r; simpl in *; [reflexivity|]. rewrite IH by tauto. apply col_set_other. intros ->. tauto.
Qed.
Lemma fold_weigh_weighted recs p ws l w : NoDup (map fst ws) -> In (l, w) ws -> ~ In w (map fst ws) -> forall r, (l < List.length r)%nat ->
  col l (fold_left (weigh recs p) ws r) =
  nan_to_num (ediv (qsum (map (fun d => col l (at_ p d) * col w (at_ p d)) recs)) (NQ (List.length recs) * col w r)).
Proof.
  induction ws as [|[l' w'] ws IH]; intros ND HI Hw r Hl; simpl in *; [tauto|]. inversion ND as [|? ? N1 N2]; subst.
  destruct HI as [E|HI].
  - injection E as -> ->. rewrite fold_weigh_other by assumption. apply col_set_col. assumption.
  - rewrite IH; auto; [|rewrite set_col_length; assumption]. do 3 f_equal. apply col_set_other. intros ->; apply Hw; auto.
Qed.
Lemma mean_row_length kws recs p : List.length (mean_row kx ky kws recs p) = List.length (at_ p (hd [] recs)).
Proof. unfold mean_row. rewrite map_length, seq_length. reflexivity. Qed.
Lemma mean_row_col kws recs p k : (k < List.length (at_ p (hd [] recs)))%nat ->
  col k (mean_row kx ky kws recs p) =
  if (Nat.eqb k kx || Nat.eqb k ky || existsb (Nat.eqb k) kws)%bool then col k (at_ p (hd [] recs))
  else qmean (map (fun d => col k (at_ p d)) recs).
Proof.
  intros H. unfold mean_row. match goal with |- context [map ?G (seq _ _)] => set (F := G) end.
  unfold col at 1. rewrite (nth_indep _ 0 (F 0%nat)) by (rewrite map_length, seq_length; assumption).
  rewrite (map_nth F). rewrite seq_nth by assumption. reflexivity.
Qed.

Lemma Forall2_map_eq {A B C} (f : A -> C) (g : B -> C) l m : Forall2 (fun a b => g b = f a) l m -> map g m = map f l.
Proof. induction 1; simpl; congruence. Qed.

Section Combined.
Variables (am bm : Z) (NX NY : nat).
Hypothesis HNX : (0 < NX)%nat.
Hypothesis HNY : (0 < NY)%nat.
Definition on_grid (m : flow) (rec : list record) : Prop :=
  List.length rec = (NY * NX)%nat /\ forall j i, (j < NY)%nat -> (i < NX)%nat ->
    let r := at_ (j * NX + i) rec in
    List.length r = List.length ls /\ col kx r = pos_x (am + Z.of_nat i) /\ col ky r = pos_y (bm + Z.of_nat j) /\
    forall l k, index_of l ls = Some k -> k <> kx -> k <> ky ->
      col k r = value_at ls (rows (data m)) l (pos_x (am + Z.of_nat i)) (pos_y (bm + Z.of_nat j)).

Lemma average_on_grid maps recs ws : maps <> [] -> Forall2 on_grid maps recs ->
  NoDup (map fst ws) -> (forall l w, In (l, w) ws -> ~ In w (map fst ws) /\ w <> kx /\ w <> ky /\ l <> kx /\ l <> ky /\ (l < List.length ls)%nat) ->
  exists avg, average_records kx ky ws recs = Ok avg /\ block am bm NX NY avg /\
    forall j i, (j < NY)%nat -> (i < NX)%nat ->
      let r := at_ (j * NX + i) avg in let x := pos_x (am + Z.of_nat i) in let y := pos_y (bm + Z.of_nat j) in
      (forall l k, index_of l ls = Some k -> k <> kx -> k <> ky -> ~ In k (map fst ws) ->
         col k r = qmean (map (fun m => value_at ls (rows (data m)) l x y) maps)) /\
      (forall l w k kw, index_of l ls = Some k -> index_of w ls = Some kw -> In (k, kw) ws ->
         col k r = nan_to_num (ediv (qsum (map (fun m => value_at ls (rows (data m)) l x y * value_at ls (rows (data m)) w x y) maps))
                                    (qsum (map (fun m => value_at ls (rows (data m)) w x y) maps)))).
Proof.
  intros Hne HF ND Hws. destruct HF as [|m0 rec0 maps recs H0 HF]; [congruence|].
  set (allrecs := rec0 :: recs). set (allmaps := m0 :: maps).
  assert (Forall2 on_grid allmaps allrecs) as HA by (constructor; assumption).
  unfold average_records. fold allrecs. unfold allrecs at 1. cbn iota.
  assert (forallb (fun d => Nat.eqb (List.length d) (List.length rec0)) allrecs = true) as ->.
  { apply forallb_forall. intros d Hd. apply Nat.eqb_eq. destruct H0 as [-> _].
    clear -HA Hd. induction HA as [|? ? ? ? [E _] _ IH]; simpl in Hd; [tauto|]. destruct Hd as [<-|Hd]; auto. }
  destruct H0 as [L0 R0].
  set (F := fun p => fold_left (weigh allrecs p) ws (mean_row kx ky (map fst ws) allrecs p)).
  assert (map F (seq 0 (List.length rec0)) = grid NY NX (fun j i => F (j * NX + i)%nat)) as EG.
  { rewrite L0. rewrite (grid_of_list (map F (seq 0 (NY * NX))) NY NX []) by (rewrite map_length, seq_length; reflexivity).
    apply grid_ext. intros j i Hj Hi. rewrite (nth_indep _ [] (F 0%nat)) by (rewrite map_length, seq_length; apply rm_lt; assumption).
    rewrite (map_nth F). rewrite seq_nth by (apply rm_lt; assumption). reflexivity. }
  eexists. split; [reflexivity|]. fold F. rewrite EG.
  assert (forall j i, (j < NY)%nat -> (i < NX)%nat ->
     List.length (F (j * NX + i)%nat) = List.length ls /\ col kx (F (j * NX + i)%nat) = pos_x (am + Z.of_nat i) /\ col ky (F (j * NX + i)%nat) = pos_y (bm + Z.of_nat j)) as HG.
  { intros j i Hj Hi. destruct (R0 j i Hj Hi) as (A1 & A2 & A3 & _). unfold F. rewrite fold_weigh_length, mean_row_length. cbn [allrecs hd].
    split; [assumption|].
    assert (forall k, In k (map fst ws) -> k <> kx /\ k <> ky) as HW.
    { intros k Hk. apply in_map_iff in Hk. destruct Hk as ([l w] & <- & Hk). destruct (Hws l w Hk) as (_ & _ & _ & N1 & N2 & _). auto. }
    rewrite !fold_weigh_other by (intros C; destruct (HW _ C); congruence).
    rewrite !mean_row_col by (cbn [allrecs hd]; rewrite A1; assumption).
    rewrite !Nat.eqb_refl, ?orb_true_r. cbn [orb allrecs hd]. rewrite A2, A3. destruct (Nat.eqb ky kx); auto. }
  split; [apply grid_block; assumption|].
  intros j i Hj Hi. cbv zeta. set (x := pos_x (am + Z.of_nat i)). set (y := pos_y (bm + Z.of_nat j)). unfold at_. rewrite grid_nth by assumption.
  assert (forall l k, index_of l ls = Some k -> k <> kx -> k <> ky ->
     map (fun d => col k (at_ (j * NX + i) d)) allrecs = map (fun m => value_at ls (rows (data m)) l x y) allmaps) as HV.
  { intros l k Hl N1 N2. apply Forall2_map_eq. eapply Forall2_impl; [|exact HA]. intros m rec [_ HR].
    destruct (HR j i Hj Hi) as (_ & _ & _ & HV). apply HV; assumption. }
  destruct (R0 j i Hj Hi) as (A1 & A2 & A3 & _).
  assert (forall l k, index_of l ls = Some k -> (k < List.length (at_ (j * NX + i) (hd [] allrecs)))%nat) as HL.
  { intros l k Hl. cbn [allrecs hd]. rewrite A1. apply nth_error_Some. rewrite (index_of_spec _ _ _ Hl). discriminate. }
  split.
  - intros l k Hl N1 N2 NW. unfold F. rewrite fold_weigh_other by assumption.
    rewrite mean_row_col by (eapply HL; eauto).
    replace (Nat.eqb k kx || Nat.eqb k ky || existsb (Nat.eqb k) (map fst ws))%bool with false.
    + f_equal. apply HV; assumption.
    + symmetry. rewrite !orb_false_iff. split; [split; apply Nat.eqb_neq; assumption|].
      destruct (existsb _ _) eqn:E; [|reflexivity]. apply existsb_exists in E. destruct E as (k' & Hk' & E). apply Nat.eqb_eq in E. subst. tauto.
  - intros l w k kw Hl Hw HI. destruct (Hws k kw HI) as (NW & N1 & N2 & N3 & N4 & N5). unfold F.
    rewrite (fold_weigh_weighted _ _ _ k kw ND HI NW) by (rewrite mean_row_length; eapply HL; eauto).
    assert (NQ (List.length allrecs) * col kw (mean_row kx ky (map fst ws) allrecs (j * NX + i)) = qsum (map (fun m => value_at ls (rows (data m)) w x y) allmaps)) as EW.
    { rewrite mean_row_col by (eapply HL; eauto).
      replace (Nat.eqb kw kx || Nat.eqb kw ky || existsb (Nat.eqb kw) (map fst ws))%bool with false.
      - unfold qmean. rewrite map_length. rewrite (HV w kw Hw N1 N2).
        assert (NQ (List.length allrecs) <> 0) by (apply NQ_nz; discriminate). field. assumption.
      - symmetry. rewrite !orb_false_iff. split; [split; apply Nat.eqb_neq; assumption|].
        destruct (existsb _ _) eqn:E; [|reflexivity]. apply existsb_exists in E. destruct E as (k' & Hk' & E). apply Nat.eqb_eq in E. subst. tauto. }
    rewrite EW. do 3 f_equal. apply Forall2_map_eq. eapply Forall2_impl; [|exact HA]. intros m rec [_ HR].
    destruct (HR j i Hj Hi) as (_ & _ & _ & HVV). rewrite (HVV l k), (HVV w kw); auto.
Qed.
End Combined.

Lemma same_labels_refl : same_labels ls ls = true.
Proof.
  unfold same_labels. rewrite Nat.eqb_refl. simpl. apply forallb_forall. intros [a b] H.
  assert (a = b) as ->; [|apply String.eqb_refl]. revert H. generalize ls. induction ls0 as [|c l IH]; simpl; [tauto|]. intros [[= <- <-]|H]; auto.
Qed.

Lemma index_inj l l' k : index_of l ls = Some k -> index_of l' ls = Some k -> l = l'.
Proof. intros H1 H2. apply index_of_spec in H1, H2. congruence. Qed.
Lemma find_labels_ok weights : (forall l w, In (l, w) weights -> In l ls /\ In w ls) ->
  exists ws, find_labels ls weights = Ok ws /\
    Forall2 (fun lw kk => index_of (fst lw) ls = Some (fst kk) /\ index_of (snd lw) ls = Some (snd kk)) weights ws.
Proof.
  induction weights as [|[l w] weights IH]; intros H; unfold find_labels; simpl; [eauto|].
  destruct (H l w (or_introl eq_refl)) as [H1 H2]. destruct (index_of_some _ _ H1) as (k & E1). destruct (index_of_some _ _ H2) as (k' & E2).
  rewrite E1, E2. simpl. destruct IH as (ws & E & HF); [intros; apply H; simpl; auto|]. unfold find_labels in E. rewrite E. simpl. eauto.
Qed.
Lemma find_labels_in weights ws : Forall2 (fun lw kk => index_of (fst lw) ls = Some (fst kk) /\ index_of (snd lw) ls = Some (snd kk)) weights ws ->
  (forall k kw, In (k, kw) ws <-> exists l w, In (l, w) weights /\ index_of l ls = Some k /\ index_of w ls = Some kw) /\
  (forall k, In k (map fst ws) <-> exists l, In l (map fst weights) /\ index_of l ls = Some k).
Proof.
  induction 1 as [|[l w] [k kw] weights ws [H1 H2] HF [IH1 IH2]]; simpl in *.
  - split; intros; split; try tauto; intros (? & H); [destruct H as (? & [] & _)|destruct H as [[] _]].
  - split.
    + intros k' kw'. rewrite IH1. split.
      * intros [[= <- <-]|(l' & w' & A & B)]; [exists l, w; auto|exists l', w'; tauto].
      * intros (l' & w' & [[= <- <-]|A] & B & C); [left; congruence|right; eauto].
    + intros k'. rewrite IH2. split.
      * intros [<-|(l' & A & B)]; [exists l; auto|exists l'; tauto].
      * intros (l' & [<-|A] & B); [left; congruence|right; eauto].
Qed.
Lemma find_labels_nodup weights ws : Forall2 (fun lw kk => index_of (fst lw) ls = Some (fst kk) /\ index_of (snd lw) ls = Some (snd kk)) weights ws ->
  NoDup (map fst weights) -> NoDup (map fst ws).
Proof.
  induction 1 as [|[l w] [k kw] weights ws [H1 H2] HF IH]; simpl; intros ND; [constructor|]. inversion ND as [|? ? N1 N2]; subst.
  constructor; [|apply IH; assumption]. intros C. apply (find_labels_in _ _ HF) in C. destruct C as (l' & A & B). simpl in *.
  rewrite (index_inj l l' k) in N1; auto.
Qed.

Lemma average_lattice maps weights ex : maps <> [] -> Forall (lattice_map ls gx gy dx dy) maps -> names_ok ls weights ->
  exists am bm NX NY avg, average_flow_data maps weights ex =
      Ok (mkFlow (mkTable ls avg) (mkFinfo (Some (Z.of_nat NX, Z.of_nat NY)) (Some (pos_x am, pos_y bm)) (Some (dx, dy)) (Some (Z.of_nat (NX * NY))))) /\
    (0 < NX)%nat /\ (0 < NY)%nat /\ block am bm NX NY avg /\
    (forall m a b nx ny, In m maps -> block a b nx ny (rows (data m)) ->
       (am <= a /\ a + Z.of_nat nx <= am + Z.of_nat NX /\ bm <= b /\ b + Z.of_nat ny <= bm + Z.of_nat NY)%Z) /\
    ((exists m a b nx ny, In m maps /\ block a b nx ny (rows (data m)) /\ a = am) /\
     (exists m a b nx ny, In m maps /\ block a b nx ny (rows (data m)) /\ (a + Z.of_nat nx = am + Z.of_nat NX)%Z) /\
     (exists m a b nx ny, In m maps /\ block a b nx ny (rows (data m)) /\ b = bm) /\
     (exists m a b nx ny, In m maps /\ block a b nx ny (rows (data m)) /\ (b + Z.of_nat ny = bm + Z.of_nat NY)%Z)) /\
    forall j i, (j < NY)%nat -> (i < NX)%nat ->
      let r := at_ (j * NX + i) avg in let x := pos_x (am + Z.of_nat i) in let y := pos_y (bm + Z.of_nat j) in
      (forall l, In l ls -> l <> "X"%string -> l <> "Y"%string -> ~ In l (map fst weights) ->
         fld ls l r = qmean (map (fun m => value_at ls (rows (data m)) l x y) maps)) /\
      (forall l w, In (l, w) weights ->
         fld ls l r = nan_to_num (ediv (qsum (map (fun m => value_at ls (rows (data m)) l x y * value_at ls (rows (data m)) w x y) maps))
                                    (qsum (map (fun m => value_at ls (rows (data m)) w x y) maps)))).
Proof.
  intros Hne HF [ND HW]. pose proof HF as HF'. rewrite Forall_forall in HF'.
  assert (get_spacing maps = Ok (dx, dy)) as ES.
  { unfold get_spacing. destruct maps as [|m maps]; [congruence|].
    destruct (HF' m (or_introl eq_refl)) as (_ & -> & _).
    rewrite (rmapM_ok_map _ (fun _ => tt)); [reflexivity|]. intros m' Hm'.
    destruct (HF' m' (or_intror Hm')) as (_ & -> & _). rewrite spacing_close_refl. reflexivity. }
  assert (filter (fun m => (negb ex || negb (Nat.eqb (List.length (rows (data m))) 0))%bool) maps = maps) as EF.
  { clear Hne ES HF'. induction HF as [|m maps (_ & _ & a & b & nx & ny & H1 & H2 & _ & H3 & _) _ IH]; simpl; [reflexivity|].
    rewrite IH. rewrite H3. replace (Nat.eqb (ny * nx) 0) with false by (symmetry; apply Nat.eqb_neq; nia).
    rewrite orb_true_r. reflexivity. }
  set (dl := map (fun m => rows (data m)) maps).
  assert (Forall is_block dl) as HB.
  { apply Forall_forall. intros d Hd. apply in_map_iff in Hd. destruct Hd as (m & <- & Hm).
    destruct (HF' m Hm) as (_ & _ & a & b & nx & ny & H1 & H2 & _ & H3). exists a, b, nx, ny. split; [assumption|split; assumption]. }
  destruct (combined_grid dl) as (am & bm & NX & NY & EG & HNX & HNY & HBnd & A1 & A2 & A3 & A4).
  { unfold dl. destruct maps; [congruence|discriminate]. } { assumption. }
  set (tr := fun m => do s <- map_shape m; transfer_data kx ky dx dy (empty_grid am bm NX NY) (rows (data m)) (fst s) (snd s)).
  assert (exists recs, rmapM tr maps = Ok recs /\ Forall2 (on_grid am bm NX NY) maps recs) as (recs & ER & HR).
  { assert (forall m, In m maps -> exists rec, tr m = Ok rec /\ on_grid am bm NX NY m rec) as HT.
    { intros m Hm. destruct (HF' m Hm) as (_ & _ & a & b & nx & ny & H1 & H2 & HS & H3).
      assert (block a b nx ny (rows (data m))) as B by (split; [assumption|split; assumption]).
      exists (grid NY NX (projected am bm a b nx ny (rows (data m)))). split.
      - unfold tr, map_shape. rewrite HS. simpl. rewrite !Nat2Z.id. apply transfer_ok; try assumption.
        apply (HBnd (rows (data m))); [|assumption]. unfold dl. apply in_map_iff. eauto.
      - split; [apply grid_length|]. intros j i Hj Hi. unfold at_. rewrite grid_nth by assumption. apply projected_row. assumption. }
    clear -HT. induction maps as [|m maps IH]; simpl; [exists []; split; [reflexivity|constructor]|].
    destruct (HT m (or_introl eq_refl)) as (rec & -> & H). destruct IH as (recs & -> & IH); [intros; apply HT; simpl; auto|].
    simpl. eexists. split; [reflexivity|]. constructor; assumption. }
  destruct (find_labels_ok weights) as (ws & EW & HWs). { intros l w H. destruct (HW l w H) as (? & ? & _). auto. }
  destruct (find_labels_in _ _ HWs) as [I1 I2].
  destruct (average_on_grid am bm NX NY HNX HNY maps recs ws Hne HR) as (avg & EA & BA & HV).
  { eapply find_labels_nodup; eauto. }
  { intros k kw Hk. apply I1 in Hk. destruct Hk as (l & w & Hlw & E1 & E2). destruct (HW l w Hlw) as (L1 & L2 & L3 & L4 & L5 & L6 & L7).
    split; [|repeat split].
    - intros C. apply I2 in C. destruct C as (l' & C1 & C2). apply L3. rewrite (index_inj _ _ _ E2 C2). assumption.
    - intros ->. apply L6. exact (index_inj _ _ _ E2 HX).
    - intros ->. apply L7. exact (index_inj _ _ _ E2 HY).
    - intros ->. apply L4. exact (index_inj _ _ _ E1 HX).
    - intros ->. apply L5. exact (index_inj _ _ _ E1 HY).
    - apply nth_error_Some. rewrite (index_of_spec _ _ _ E1). discriminate. }
  exists am, bm, NX, NY, avg. split; [|split; [assumption|split; [assumption|split; [assumption|split; [|split; [|]]]]]].
  - unfold average_flow_data. rewrite ES. cbn [rbind]. rewrite EF. destruct maps as [|m0 maps']; [congruence|].
    destruct (HF' m0 (or_introl eq_refl)) as (EL & _). rewrite EL.
    assert (forallb (fun m => same_labels ls (labels (data m))) (m0 :: maps') = true) as ->.
    { apply forallb_forall. intros m Hm. destruct (HF' m Hm) as (-> & _). apply same_labels_refl. }
    cbn [negb]. rewrite HX, HY. cbn [of_option rbind fst snd]. fold dl. rewrite EG. cbn [rbind]. fold tr. rewrite ER. cbn [rbind].
    rewrite EW. cbn [rbind]. rewrite EA. reflexivity.
  - intros m a b nx ny Hm B. apply (HBnd (rows (data m))); [|assumption]. apply in_map_iff. eauto.
  - assert (forall P : Z -> Z -> nat -> nat -> Prop, (exists d a b nx ny, In d dl /\ block a b nx ny d /\ P a b nx ny) ->
      exists m a b nx ny, In m maps /\ block a b nx ny (rows (data m)) /\ P a b nx ny) as HQ.
    { intros P (d & a & b & nx & ny & Hd & B & HP). apply in_map_iff in Hd. destruct Hd as (m & <- & Hm). exists m, a, b, nx, ny. auto. }
    split; [apply (HQ (fun a b nx ny => a = am)); assumption|]. split; [apply (HQ (fun a b nx ny => a + Z.of_nat nx = am + Z.of_nat NX)%Z); assumption|].
    split; [apply (HQ (fun a b nx ny => b = bm)); assumption|apply (HQ (fun a b nx ny => b + Z.of_nat ny = bm + Z.of_nat NY)%Z); assumption].
  - intros j i Hj Hi r x y. destruct (HV j i Hj Hi) as [V1 V2]. split.
    + intros l Hl N1 N2 NW. destruct (index_of_some _ _ Hl) as (k & Ek). rewrite (fld_col _ _ _ _ Ek). apply V1; auto.
      * intros ->. apply N1. exact (index_inj _ _ _ Ek HX).
      * intros ->. apply N2. exact (index_inj _ _ _ Ek HY).
      * intros C. apply I2 in C. destruct C as (l' & C1 & C2). apply NW. rewrite (index_inj _ _ _ Ek C2). assumption.
    + intros l w Hlw. destruct (HW l w Hlw) as (L1 & L2 & _).
      destruct (index_of_some _ _ L1) as (k & Ek). destruct (index_of_some _ _ L2) as (kw & Ekw). rewrite (fld_col _ _ _ _ Ek).
      apply (V2 l w k kw); auto. apply I1. eauto.
Qed.
End Lattice.

Lemma qsumn_window N a n f : (a + n <= N)%nat ->
  qsumn N (fun i => if (Nat.leb a i && Nat.ltb i (a + n))%bool then f (i - a)%nat else 0) = qsumn n f.
Proof.
  intros H. replace N with (a + (n + (N - a - n)))%nat by lia. rewrite !qsumn_add.
  rewrite qsumn_zero. 2:{ intros i Hi. replace (Nat.leb a i) with false by (symmetry; apply Nat.leb_gt; lia). reflexivity. }
  rewrite (qsumn_zero (N - a - n)). 2:{ intros i Hi. replace (Nat.ltb (a + (n + i)) (a + n)) with false by (symmetry; apply Nat.ltb_ge; lia). rewrite andb_false_r. reflexivity. }
  rewrite (qsumn_ext n _ f); [ring|]. intros i Hi.
  replace (Nat.leb a (a + i)) with true by (symmetry; apply Nat.leb_le; lia).
  replace (Nat.ltb (a + i) (a + n)) with true by (symmetry; apply Nat.ltb_lt; lia). simpl. f_equal. lia.
Qed.
Lemma qsumn_window2 NX NY a b nx ny (f : nat -> nat -> Qc) : (a + nx <= NX)%nat -> (b + ny <= NY)%nat ->
  qsumn NY (fun j => qsumn NX (fun i =>
     if (Nat.leb a i && Nat.ltb i (a + nx) && (Nat.leb b j && Nat.ltb j (b + ny)))%bool then f (j - b)%nat (i - a)%nat else 0)) =
  qsumn ny (fun j => qsumn nx (fun i => f j i)).
Proof.
  intros H1 H2. rewrite <- (qsumn_window NY b ny) by assumption. apply qsumn_ext. intros j Hj.
  destruct (Nat.leb b j && Nat.ltb j (b + ny))%bool.
  - etransitivity; [|exact (qsumn_window NX a nx (f (j - b)%nat) H1)]. apply qsumn_ext. intros i Hi. rewrite andb_true_r. reflexivity.
  - apply qsumn_zero. intros i _. rewrite andb_false_r. reflexivity.
Qed.
Lemma qsum_blocks (h : record -> Qc) rows nx ny : List.length rows = (ny * nx)%nat ->
  qsum (map h rows) = qsumn ny (fun j => qsumn nx (fun i => h (at_ (j * nx + i) rows))).
Proof. intros H. rewrite (qsum_map_nth h rows []), H, qsumn_mul. reflexivity. Qed.

Section Totals.
Variables (ls : list string) (kx ky : nat) (gx gy dx dy : Qc).
Hypothesis HX : index_of "X"%string ls = Some kx.
Hypothesis HY : index_of "Y"%string ls = Some ky.
Hypothesis Hdx : 0 < dx.
Hypothesis Hdy : 0 < dy.
Hypothesis Hxy : kx <> ky.

(** the sum over a larger grid of any two fields' product (or one field) is the sum over the records *)
Lemma block_total (am bm : Z) (NX NY : nat) a b nx ny rows l w k kw : block ls gx gy dx dy a b nx ny rows ->
  (am <= a /\ a + Z.of_nat nx <= am + Z.of_nat NX /\ bm <= b /\ b + Z.of_nat ny <= bm + Z.of_nat NY)%Z ->
  index_of l ls = Some k -> index_of w ls = Some kw ->
  (qsumn NY (fun j => qsumn NX (fun i => value_at ls rows l (pos_x gx dx (am + Z.of_nat i)) (pos_y gy dy (bm + Z.of_nat j)))) = qsum (map (fld ls l) rows)) /\
  (qsumn NY (fun j => qsumn NX (fun i => value_at ls rows l (pos_x gx dx (am + Z.of_nat i)) (pos_y gy dy (bm + Z.of_nat j)) *
                                         value_at ls rows w (pos_x gx dx (am + Z.of_nat i)) (pos_y gy dy (bm + Z.of_nat j)))) =
   qsum (map (fun r => fld ls l r * fld ls w r) rows)).
Proof.
  intros B HB Hl Hw. pose proof B as (_ & _ & Hlen & _).
  set (a' := Z.to_nat (a - am)). set (b' := Z.to_nat (b - bm)).
  assert (forall i j, ((a <=? am + Z.of_nat i) && (am + Z.of_nat i <? a + Z.of_nat nx) && (b <=? bm + Z.of_nat j) && (bm + Z.of_nat j <? b + Z.of_nat ny))%Z%bool =
     (Nat.leb a' i && Nat.ltb i (a' + nx) && (Nat.leb b' j && Nat.ltb j (b' + ny)))%bool) as EB.
  { intros i j. apply eq_true_iff_eq. rewrite !andb_true_iff, !Z.leb_le, !Z.ltb_lt, !Nat.leb_le, !Nat.ltb_lt. unfold a', b'. lia. }
  assert (forall i j, (Z.to_nat (bm + Z.of_nat j - b) * nx + Z.to_nat (am + Z.of_nat i - a) = (j - b') * nx + (i - a'))%nat) as EI.
  { intros i j. unfold a', b'. repeat f_equal; lia. }
  split.
  - rewrite (qsum_blocks (fld ls l) rows nx ny Hlen).
    rewrite <- (qsumn_window2 NX NY a' b' nx ny (fun j i => fld ls l (at_ (j * nx + i) rows))) by (unfold a', b'; lia).
    apply qsumn_ext. intros j Hj. apply qsumn_ext. intros i Hi. unfold pos_x, pos_y.
    rewrite (block_value ls kx ky gx gy dx dy HX HY Hdx Hdy a b nx ny rows l k) by assumption.
    rewrite EB, EI, (fld_col _ _ _ _ Hl). reflexivity.
  - rewrite (qsum_blocks (fun r => fld ls l r * fld ls w r) rows nx ny Hlen).
    rewrite <- (qsumn_window2 NX NY a' b' nx ny (fun j i => fld ls l (at_ (j * nx + i) rows) * fld ls w (at_ (j * nx + i) rows))) by (unfold a', b'; lia).
    apply qsumn_ext. intros j Hj. apply qsumn_ext. intros i Hi. unfold pos_x, pos_y.
    rewrite (block_value ls kx ky gx gy dx dy HX HY Hdx Hdy a b nx ny rows l k) by assumption.
    rewrite (block_value ls kx ky gx gy dx dy HX HY Hdx Hdy a b nx ny rows w kw) by assumption.
    rewrite EB, EI, (fld_col _ _ _ _ Hl), (fld_col _ _ _ _ Hw). destruct (_ && _)%bool; [reflexivity|ring].
Qed.
End Totals.

Section Results.
Variables (ls : list string) (gx gy dx dy : Qc).
Hypothesis HX : In "X"%string ls.
Hypothesis HY : In "Y"%string ls.
Hypothesis Hdx : 0 < dx.
Hypothesis Hdy : 0 < dy.
Variables (maps : list flow) (weights : list (string * string)) (ex : bool).
Hypothesis Hne : maps <> [].
Hypothesis HM : Forall (lattice_map ls gx gy dx dy) maps.
Hypothesis HW : names_ok ls weights.

Lemma result_grid : exists out x0 y0 nx ny, average_flow_data maps weights ex = Ok out /\
  labels (data out) = ls /\
  info out = mkFinfo (Some (Z.of_nat nx, Z.of_nat ny)) (Some (x0, y0)) (Some (dx, dy)) (Some (Z.of_nat (nx * ny))) /\
  (0 < nx)%nat /\ (0 < ny)%nat /\ regular ls x0 y0 dx dy nx ny (rows (data out)) /\
  (forall m r, In m maps -> In r (rows (data m)) -> exists i j, (i < nx)%nat /\ (j < ny)%nat /\ fld ls "X" r = x0 + NQ i * dx /\ fld ls "Y" r = y0 + NQ j * dy) /\
  (exists m r, In m maps /\ In r (rows (data m)) /\ fld ls "X" r = x0) /\
  (exists m r, In m maps /\ In r (rows (data m)) /\ fld ls "Y" r = y0) /\
  (exists m r, In m maps /\ In r (rows (data m)) /\ fld ls "X" r = x0 + NQ (nx - 1) * dx) /\
  (exists m r, In m maps /\ In r (rows (data m)) /\ fld ls "Y" r = y0 + NQ (ny - 1) * dy) /\
  (forall r l, In r (rows (data out)) -> In l ls -> l <> "X"%string -> l <> "Y"%string -> ~ In l (map fst weights) ->
     fld ls l r = qmean (map (fun m => value_at ls (rows (data m)) l (fld ls "X" r) (fld ls "Y" r)) maps)) /\
  (forall r l w, In r (rows (data out)) -> In (l, w) weights ->
     fld ls l r = nan_to_num (ediv (qsum (map (fun m => value_at ls (rows (data m)) l (fld ls "X" r) (fld ls "Y" r) * value_at ls (rows (data m)) w (fld ls "X" r) (fld ls "Y" r)) maps))
                                   (qsum (map (fun m => value_at ls (rows (data m)) w (fld ls "X" r) (fld ls "Y" r)) maps)))) /\
  (forall m l w, In m maps -> In l ls -> In w ls ->
     qsum (map (fun r => value_at ls (rows (data m)) l (fld ls "X" r) (fld ls "Y" r)) (rows (data out))) = qsum (map (fld ls l) (rows (data m))) /\
     qsum (map (fun r => value_at ls (rows (data m)) l (fld ls "X" r) (fld ls "Y" r) * value_at ls (rows (data m)) w (fld ls "X" r) (fld ls "Y" r)) (rows (data out))) =
     qsum (map (fun r => fld ls l r * fld ls w r) (rows (data m)))).
Proof.
  destruct (index_of_some _ _ HX) as (kx & EX). destruct (index_of_some _ _ HY) as (ky & EY).
  assert (kx <> ky) as Hxy. { intros ->. assert ("X" = "Y")%string by exact (index_inj ls _ _ _ EX EY). discriminate. }
  destruct (average_lattice ls kx ky gx gy dx dy EX EY Hdx Hdy Hxy maps weights ex Hne HM HW)
    as (am & bm & NX & NY & avg & E & HNX & HNY & B & Hbnd & (X1 & X2 & Y1 & Y2) & HV).
  assert (forall m, In m maps -> exists a b nx ny, block ls gx gy dx dy a b nx ny (rows (data m))) as HB.
  { rewrite Forall_forall in HM. intros m Hm. destruct (HM m Hm) as (_ & _ & a & b & nx & ny & H1 & H2 & _ & H3).
    exists a, b, nx, ny. split; [assumption|split; assumption]. }
  assert (forall m a b nx ny i j, In m maps -> block ls gx gy dx dy a b nx ny (rows (data m)) -> (i < nx)%nat -> (j < ny)%nat ->
    exists r, In r (rows (data m)) /\ fld ls "X" r = gx + ZQ (a + Z.of_nat i) * dx /\ fld ls "Y" r = gy + ZQ (b + Z.of_nat j) * dy) as HR.
  { intros m a b nx ny i j Hm Bm Hi Hj. destruct (block_row ls kx ky gx gy dx dy EX EY a b nx ny _ i j Bm Hi Hj) as (R1 & R2 & R3).
    eexists. split; [exact R1|]. rewrite (fld_col _ _ _ _ EX), (fld_col _ _ _ _ EY). auto. }
  assert (forall r, In r avg -> exists i j, (i < NX)%nat /\ (j < NY)%nat /\ r = at_ (j * NX + i) avg /\
     fld ls "X" r = pos_x gx dx (am + Z.of_nat i) /\ fld ls "Y" r = pos_y gy dy (bm + Z.of_nat j)) as HA.
  { intros r Hr. destruct (block_in ls gx gy dx dy am bm NX NY avg r B Hr) as (i & j & Hi & Hj & ->). exists i, j.
    destruct (block_row ls kx ky gx gy dx dy EX EY am bm NX NY _ i j B Hi Hj) as (R1 & R2 & R3).
    rewrite (fld_col _ _ _ _ EX), (fld_col _ _ _ _ EY). auto. }
  exists (mkFlow (mkTable ls avg) (mkFinfo (Some (Z.of_nat NX, Z.of_nat NY)) (Some (pos_x gx dx am, pos_y gy dy bm)) (Some (dx, dy)) (Some (Z.of_nat (NX * NY))))),
    (pos_x gx dx am), (pos_y gy dy bm), NX, NY. cbn [data info labels rows].
  split; [exact E|]. split; [reflexivity|]. split; [reflexivity|]. split; [assumption|]. split; [assumption|]. split; [exact (proj2 (proj2 B))|].
  split.
  { intros m r Hm Hr. destruct (HB m Hm) as (a & b & nx & ny & Bm). destruct (Hbnd m a b nx ny Hm Bm) as (G1 & G2 & G3 & G4).
    destruct (block_in ls gx gy dx dy a b nx ny _ r Bm Hr) as (i & j & Hi & Hj & ->).
    destruct (block_row ls kx ky gx gy dx dy EX EY a b nx ny _ i j Bm Hi Hj) as (R1 & R2 & R3).
    exists (Z.to_nat (a + Z.of_nat i - am)), (Z.to_nat (b + Z.of_nat j - bm)).
    rewrite (fld_col _ _ _ _ EX), (fld_col _ _ _ _ EY), R2, R3. unfold pos_x, pos_y. rewrite !lattice_shift.
    split; [lia|]. split; [lia|]. split; do 3 f_equal; lia. }
  split. { destruct X1 as (m & a & b & nx & ny & Hm & Bm & ->). pose proof Bm as (P1 & P2 & _). destruct (HR m am b nx ny 0%nat 0%nat Hm Bm P1 P2) as (r & R1 & R2 & R3).
    exists m, r. split; [assumption|split; [assumption|]]. rewrite R2. unfold pos_x. do 3 f_equal. lia. }
  split. { destruct Y1 as (m & a & b & nx & ny & Hm & Bm & ->). pose proof Bm as (P1 & P2 & _). destruct (HR m a bm nx ny 0%nat 0%nat Hm Bm P1 P2) as (r & R1 & R2 & R3).
    exists m, r. split; [assumption|split; [assumption|]]. rewrite R3. unfold pos_y. do 3 f_equal. lia. }
  split. { destruct X2 as (m & a & b & nx & ny & Hm & Bm & EE). pose proof Bm as (P1 & P2 & _). destruct (HR m a b nx ny (nx - 1)%nat 0%nat Hm Bm ltac:(lia) P2) as (r & R1 & R2 & R3).
    exists m, r. split; [assumption|split; [assumption|]]. rewrite R2. unfold pos_x. rewrite lattice_shift. do 3 f_equal. lia. }
  split. { destruct Y2 as (m & a & b & nx & ny & Hm & Bm & EE). pose proof Bm as (P1 & P2 & _). destruct (HR m a b nx ny 0%nat (ny - 1)%nat Hm Bm P1 ltac:(lia)) as (r & R1 & R2 & R3).
    exists m, r. split; [assumption|split; [assumption|]]. rewrite R3. unfold pos_y. rewrite lattice_shift. do 3 f_equal. lia. }
  split. { intros r l Hr Hl N1 N2 NW. destruct (HA r Hr) as (i & j & Hi & Hj & -> & -> & ->). destruct (HV j i Hj Hi) as [V _]. apply V; assumption. }
  split. { intros r l w Hr Hl. destruct (HA r Hr) as (i & j & Hi & Hj & -> & -> & ->). destruct (HV j i Hj Hi) as [_ V]. apply V; assumption. }
  intros m l w Hm Hl Hw. destruct (HB m Hm) as (a & b & nx & ny & Bm).
  destruct (index_of_some _ _ Hl) as (k & El). destruct (index_of_some _ _ Hw) as (kw & Ew).
  destruct (block_total ls kx ky gx gy dx dy EX EY Hdx Hdy Hxy am bm NX NY a b nx ny _ l w k kw Bm (Hbnd m a b nx ny Hm Bm) El Ew) as [T1 T2].
  assert (forall h : Qc -> Qc -> Qc, qsum (map (fun r => h (fld ls "X" r) (fld ls "Y" r)) avg) =
     qsumn NY (fun j => qsumn NX (fun i => h (pos_x gx dx (am + Z.of_nat i)) (pos_y gy dy (bm + Z.of_nat j))))) as HS.
  { intros h. rewrite (qsum_blocks _ avg NX NY (proj1 (proj2 (proj2 B)))). apply qsumn_ext. intros j Hj. apply qsumn_ext. intros i Hi.
    destruct (block_row ls kx ky gx gy dx dy EX EY am bm NX NY _ i j B Hi Hj) as (_ & R2 & R3).
    rewrite (fld_col _ _ _ _ EX), (fld_col _ _ _ _ EY), R2, R3. reflexivity. }
  split; [rewrite <- T1|rewrite <- T2].
  - apply (HS (fun x y => value_at ls (rows (data m)) l x y)).
  - apply (HS (fun x y => value_at ls (rows (data m)) l x y * value_at ls (rows (data m)) w x y)).
Qed.
End Results.

(** Consequences. *)
Lemma nonneg_sum_zero {A} (w : A -> Qc) l : (forall a, In a l -> 0 <= w a) -> qsum (map w l) = 0 -> forall a, In a l -> w a = 0.
Proof.
  induction l as [|b l IH]; simpl; intros H E a Ha; [tauto|].
  assert (0 <= w b) by auto. assert (0 <= qsum (map w l)). { apply qsum_nonneg. intros x Hx. apply in_map_iff in Hx. destruct Hx as (c & <- & Hc). auto. }
  destruct Ha as [<-|Ha]; [generalize dependent (qsum (map w l)); intros; qlra'|].
  apply IH; auto. generalize dependent (qsum (map w l)). intros. generalize dependent (w b). intros. qlra'.
Qed.
Lemma ediv_weighted {A} (v w : A -> Qc) l : (forall a, In a l -> 0 <= w a) ->
  weighted_mean (map v l) (map w l) (nan_to_num (ediv (qsum (map (fun a => v a * w a) l)) (qsum (map w l)))).
Proof.
  intros H. unfold weighted_mean, ediv.
  assert (map (fun p : Qc * Qc => fst p * snd p) (combine (map v l) (map w l)) = map (fun a => v a * w a) l) as ->.
  { clear H. induction l as [|a l IH]; simpl; [reflexivity|]. rewrite IH. reflexivity. }
  destruct (qeq_spec (qsum (map w l)) 0) as [E|E].
  - assert (qsum (map (fun a => v a * w a) l) = 0) as ->.
    { pose proof (nonneg_sum_zero w l H E) as Z. clear H E. induction l as [|a l IH]; simpl; [reflexivity|].
      rewrite IH by (intros; apply Z; simpl; auto). rewrite (Z a (or_introl eq_refl)). ring. }
    change (qeq 0 0) with true. cbn. rewrite E. split; [ring|reflexivity].
  - cbn. split; [field; assumption|contradiction].
Qed.

Lemma value_at_nonneg ls rows l x y : (forall r, In r rows -> 0 <= fld ls l r) -> 0 <= value_at ls rows l x y.
Proof.
  intros H. unfold value_at. destruct (find _ _) eqn:E; [|apply Qcle_refl]. apply find_some in E. apply H. tauto.
Qed.

Lemma qsum_map_swap {A B} (f : A -> B -> Qc) l m :
  qsum (map (fun a => qsum (map (fun b => f a b) m)) l) = qsum (map (fun b => qsum (map (fun a => f a b) l)) m).
Proof.
  induction l as [|a l IH]; simpl.
  - symmetry. rewrite qsum_map_const. ring.
  - rewrite IH, qsum_map_plus. reflexivity.
Qed.
Lemma qmean_map_sum {A B} (f : A -> B -> Qc) l m :
  qsum (map (fun a => qmean (map (fun b => f a b) m)) l) = qmean (map (fun b => qsum (map (fun a => f a b) l)) m).
Proof.
  unfold qmean. rewrite map_length.
  transitivity (qsum (map (fun a => qsum (map (fun b => f a b) m) * / NQ (List.length m)) l)).
  - f_equal. apply map_ext. intros a. rewrite map_length. reflexivity.
  - rewrite qsum_map_scale_r, qsum_map_swap. reflexivity.
Qed.

Section Results2.
Variables (ls : list string) (gx gy dx dy : Qc).
Hypothesis HX : In "X"%string ls.
Hypothesis HY : In "Y"%string ls.
Hypothesis Hdx : 0 < dx.
Hypothesis Hdy : 0 < dy.
Variables (maps : list flow) (weights : list (string * string)) (ex : bool).
Hypothesis HM : Forall (lattice_map ls gx gy dx dy) maps.
Hypothesis HW : names_ok ls weights.
Variable out : flow.
Hypothesis HO : average_flow_data maps weights ex = Ok out.

Lemma out_nonempty : maps <> [].
Proof. intros ->. discriminate HO. Qed.

Lemma out_mean r l : In r (rows (data out)) -> In l ls -> l <> "X"%string -> l <> "Y"%string -> ~ In l (map fst weights) ->
  fld ls l r = qmean (map (fun m => value_at ls (rows (data m)) l (fld ls "X" r) (fld ls "Y" r)) maps).
Proof.
  destruct (result_grid ls gx gy dx dy HX HY Hdx Hdy maps weights ex out_nonempty HM HW) as (o & x0 & y0 & nx & ny & E & _ & _ & _ & _ & _ & _ & _ & _ & _ & _ & V & _).
  rewrite HO in E. injection E as <-. apply V.
Qed.
Lemma out_weighted r l w : In r (rows (data out)) -> In (l, w) weights ->
  (forall m r', In m maps -> In r' (rows (data m)) -> 0 <= fld ls w r') ->
  weighted_mean (map (fun m => value_at ls (rows (data m)) l (fld ls "X" r) (fld ls "Y" r)) maps)
                (map (fun m => value_at ls (rows (data m)) w (fld ls "X" r) (fld ls "Y" r)) maps) (fld ls l r).
Proof.
  destruct (result_grid ls gx gy dx dy HX HY Hdx Hdy maps weights ex out_nonempty HM HW) as (o & x0 & y0 & nx & ny & E & _ & _ & _ & _ & _ & _ & _ & _ & _ & _ & _ & V & _).
  rewrite HO in E. injection E as <-. intros Hr Hl Hp. rewrite (V r l w Hr Hl). apply ediv_weighted.
  intros m Hm. apply value_at_nonneg. intros r' Hr'. eauto.
Qed.
Lemma out_total l : In l ls -> l <> "X"%string -> l <> "Y"%string -> ~ In l (map fst weights) ->
  qsum (map (fld ls l) (rows (data out))) = qmean (map (fun m => qsum (map (fld ls l) (rows (data m)))) maps).
Proof.
  intros Hl N1 N2 NW.
  destruct (result_grid ls gx gy dx dy HX HY Hdx Hdy maps weights ex out_nonempty HM HW) as (o & x0 & y0 & nx & ny & E & _ & _ & _ & _ & _ & _ & _ & _ & _ & _ & V & _ & T).
  rewrite HO in E. injection E as <-.
  transitivity (qsum (map (fun r => qmean (map (fun m => value_at ls (rows (data m)) l (fld ls "X" r) (fld ls "Y" r)) maps)) (rows (data out)))).
  - f_equal. apply map_ext_in. intros r Hr. apply V; assumption.
  - rewrite (qmean_map_sum (fun r m => value_at ls (rows (data m)) l (fld ls "X" r) (fld ls "Y" r))). f_equal. apply map_ext_in.
    intros m Hm. apply (T m l l); assumption.
Qed.
Lemma out_weighted_total l w : In (l, w) weights ->
  (forall m r', In m maps -> In r' (rows (data m)) -> 0 <= fld ls w r') ->
  qsum (map (fun r => fld ls l r * fld ls w r) (rows (data out))) =
  qmean (map (fun m => qsum (map (fun r => fld ls l r * fld ls w r) (rows (data m)))) maps).
Proof.
  intros Hl Hp. destruct (proj2 HW l w Hl) as (L1 & L2 & L3 & L4 & L5 & L6 & L7).
  destruct (result_grid ls gx gy dx dy HX HY Hdx Hdy maps weights ex out_nonempty HM HW) as (o & x0 & y0 & nx & ny & E & _ & _ & _ & _ & _ & _ & _ & _ & _ & _ & V & _ & T).
  rewrite HO in E. injection E as <-.
  transitivity (qsum (map (fun r => qmean (map (fun m => value_at ls (rows (data m)) l (fld ls "X" r) (fld ls "Y" r) * value_at ls (rows (data m)) w (fld ls "X" r) (fld ls "Y" r)) maps)) (rows (data out)))).
  - f_equal. apply map_ext_in. intros r Hr. destruct (out_weighted r l w Hr Hl Hp) as [A _].
    rewrite (V r w Hr L2 L6 L7 L3). unfold qmean. rewrite !map_length.
    assert (NQ (List.length maps) <> 0) by (apply NQ_nz; intros C; apply out_nonempty; apply length_zero_iff_nil; exact C).
    assert (map (fun p : Qc * Qc => fst p * snd p) (combine (map (fun m => value_at ls (rows (data m)) l (fld ls "X" r) (fld ls "Y" r)) maps) (map (fun m => value_at ls (rows (data m)) w (fld ls "X" r) (fld ls "Y" r)) maps)) =
      map (fun m => value_at ls (rows (data m)) l (fld ls "X" r) (fld ls "Y" r) * value_at ls (rows (data m)) w (fld ls "X" r) (fld ls "Y" r)) maps) as EC.
    { clear. induction maps as [|a l0 IH]; simpl; [reflexivity|]. rewrite IH. reflexivity. }
    rewrite EC in A. rewrite <- A. field. assumption.
  - rewrite (qmean_map_sum (fun r m => value_at ls (rows (data m)) l (fld ls "X" r) (fld ls "Y" r) * value_at ls (rows (data m)) w (fld ls "X" r) (fld ls "Y" r))). f_equal. apply map_ext_in.
    intros m Hm. apply (T m l w); assumption.
Qed.
End Results2.

Lemma index_of_nodup ls : NoDup ls -> forall k, (k < List.length ls)%nat -> exists l, In l ls /\ index_of l ls = Some k.
Proof.
  induction ls as [|a ls IH]; simpl; intros ND k Hk; [lia|]. inversion ND as [|? ? N1 N2]; subst. destruct k as [|k].
  - exists a. rewrite String.eqb_refl. auto.
  - destruct (IH N2 k ltac:(lia)) as (l & Hl & E). exists l. split; [auto|]. rewrite E.
    assert (l <> a) by (intros ->; auto). apply String.eqb_neq in H. rewrite H. reflexivity.
Qed.
Lemma record_ext ls (r r' : record) : NoDup ls -> List.length r = List.length ls -> List.length r' = List.length ls ->
  (forall l, In l ls -> fld ls l r = fld ls l r') -> r = r'.
Proof.
  intros ND L1 L2 H. apply (nth_ext _ _ 0 0); [congruence|]. intros k Hk.
  destruct (index_of_nodup ls ND k ltac:(lia)) as (l & Hl & E). specialize (H l Hl). unfold fld in H. rewrite E in H. exact H.
Qed.

Lemma average_order ls gx gy dx dy maps maps' weights ex : In "X"%string ls -> In "Y"%string ls -> 0 < dx -> 0 < dy ->
  NoDup ls -> Forall (lattice_map ls gx gy dx dy) maps -> names_ok ls weights -> Permutation maps maps' ->
  average_flow_data maps weights ex = average_flow_data maps' weights ex.
Proof.
  intros HX HY Hdx Hdy ND HM HW P. destruct maps as [|m0 maps0]; [apply Permutation_nil in P; subst; reflexivity|].
  set (maps := m0 :: maps0) in *.
  assert (maps <> []) as Hne by discriminate.
  assert (maps' <> []) as Hne'. { intros ->. symmetry in P. apply Permutation_nil in P. discriminate. }
  assert (Forall (lattice_map ls gx gy dx dy) maps') as HM'.
  { rewrite Forall_forall in *. intros m Hm. apply HM. apply (Permutation_in _ (Permutation_sym P)). assumption. }
  destruct (result_grid ls gx gy dx dy HX HY Hdx Hdy maps weights ex Hne HM HW) as (o & x0 & y0 & nx & ny & E & L & I & Nx & Ny & R & C & X0 & Y0 & X1 & Y1 & V & W & _).
  destruct (result_grid ls gx gy dx dy HX HY Hdx Hdy maps' weights ex Hne' HM' HW) as (o' & x0' & y0' & nx' & ny' & E' & L' & I' & Nx' & Ny' & R' & C' & X0' & Y0' & X1' & Y1' & V' & W' & _).
  rewrite E, E'. f_equal.
  assert (forall m, In m maps <-> In m maps') as HI. { intros m. split; apply Permutation_in; [assumption|symmetry; assumption]. }
  assert (forall d n (z : Qc), 0 < d -> z <= z + NQ n * d) as Hmono.
  { intros d n z Hd. pose proof (NQ_nonneg n) as Hn. pose proof (qmult_nonneg _ _ Hn (qc_lt_le _ _ Hd)) as K. generalize dependent (NQ n * d). intros; qlra'. }
  assert (forall d n k (z : Qc), 0 < d -> (k < n)%nat -> z + NQ k * d <= z + NQ (n - 1) * d) as Hmono2.
  { intros d n k z Hd Hk. replace (NQ (n - 1)) with (NQ k + NQ (n - 1 - k)) by (rewrite <- NQ_add; f_equal; lia).
    pose proof (Hmono d (n - 1 - k)%nat (z + NQ k * d) Hd) as K. replace (z + (NQ k + NQ (n - 1 - k)) * d) with (z + NQ k * d + NQ (n - 1 - k) * d) by ring. exact K. }
  assert (x0 = x0') as <-.
  { destruct X0 as (m & r & Hm & Hr & Ex). destruct X0' as (m' & r' & Hm' & Hr' & Ex').
    destruct (C' m r (proj1 (HI _) Hm) Hr) as (i & j & _ & _ & K & _). destruct (C m' r' (proj2 (HI _) Hm') Hr') as (i' & j' & _ & _ & K' & _).
    apply Qcle_antisym.
    - rewrite <- Ex', K'. apply Hmono. assumption. - rewrite <- Ex, K. apply Hmono. assumption. }
  assert (y0 = y0') as <-.
  { destruct Y0 as (m & r & Hm & Hr & Ex). destruct Y0' as (m' & r' & Hm' & Hr' & Ex').
    destruct (C' m r (proj1 (HI _) Hm) Hr) as (i & j & _ & _ & _ & K). destruct (C m' r' (proj2 (HI _) Hm') Hr') as (i' & j' & _ & _ & _ & K').
    apply Qcle_antisym.
    - rewrite <- Ex', K'. apply Hmono. assumption. - rewrite <- Ex, K. apply Hmono. assumption. }
  assert (forall z d a b, 0 < d -> (0 < a)%nat -> (0 < b)%nat -> z + NQ (a - 1) * d = z + NQ (b - 1) * d -> a = b) as Hinj.
  { intros z d a b Hd Ha Hb K. unfold NQ in K. apply lattice_inj in K; [|assumption]. lia. }
  assert (nx = nx') as <-.
  { destruct X1 as (m & r & Hm & Hr & Ex). destruct X1' as (m' & r' & Hm' & Hr' & Ex').
    destruct (C' m r (proj1 (HI _) Hm) Hr) as (i & j & Hi & _ & K & _). destruct (C m' r' (proj2 (HI _) Hm') Hr') as (i' & j' & Hi' & _ & K' & _).
    apply (Hinj x0 dx); try assumption. apply Qcle_antisym.
    - rewrite <- Ex, K. apply Hmono2; assumption. - rewrite <- Ex', K'. apply Hmono2; assumption. }
  assert (ny = ny') as <-.
  { destruct Y1 as (m & r & Hm & Hr & Ex). destruct Y1' as (m' & r' & Hm' & Hr' & Ex').
    destruct (C' m r (proj1 (HI _) Hm) Hr) as (i & j & _ & Hi & _ & K). destruct (C m' r' (proj2 (HI _) Hm') Hr') as (i' & j' & _ & Hi' & _ & K').
    apply (Hinj y0 dy); try assumption. apply Qcle_antisym.
    - rewrite <- Ex, K. apply Hmono2; assumption. - rewrite <- Ex', K'. apply Hmono2; assumption. }
  destruct o as [[ols orows] oinfo], o' as [[ols' orows'] oinfo']. cbn [data info labels rows] in *. subst ols ols' oinfo oinfo'.
  do 2 f_equal. destruct R as (R1 & R2 & R3), R' as (R1' & R2' & R3').
  apply (nth_ext _ _ [] []); [congruence|]. intros p Hp. rewrite R1 in Hp. destruct (rm_split _ _ _ Hp) as (i & j & Hi & Hj & ->).
  set (r := nth (j * nx + i) orows []). set (r' := nth (j * nx + i) orows' []).
  assert (In r orows) as Hr by (apply nth_In; rewrite R1; apply rm_lt; assumption).
  assert (In r' orows') as Hr' by (apply nth_In; rewrite R1'; apply rm_lt; assumption).
  destruct (R3 i j Hi Hj) as [A B]. destruct (R3' i j Hi Hj) as [A' B']. fold r in A, B. fold r' in A', B'.
  apply (record_ext ls); auto. intros l Hl.
  destruct (string_dec l "X") as [->|N1]; [congruence|]. destruct (string_dec l "Y") as [->|N2]; [congruence|].
  destruct (in_dec string_dec l (map fst weights)) as [HIn|NW].
  - apply in_map_iff in HIn. destruct HIn as ([l' w] & K & HIn). simpl in K. subst l'.
    rewrite (W r l w Hr HIn), (W' r' l w Hr' HIn). rewrite A, B, A', B'. do 2 f_equal; apply qsum_perm, Permutation_map; assumption.
  - rewrite (V r l Hr Hl N1 N2 NW), (V' r' l Hr' Hl N1 N2 NW). rewrite A, B, A', B'.
    unfold qmean. rewrite !map_length. rewrite (Permutation_length P). f_equal. apply qsum_perm, Permutation_map; assumption.
Qed.

(** Rejected input. *)
Lemma rmapM_ok_in {A B} (f : A -> res B) l ys x : rmapM f l = Ok ys -> In x l -> exists y, f x = Ok y.
Proof.
  revert ys. induction l as [|a l IH]; simpl; intros ys H Hx; [tauto|]. destruct (f a) eqn:E; simpl in H; [|discriminate].
  destruct (rmapM f l) eqn:E2; simpl in H; [|discriminate]. destruct Hx as [<-|Hx]; eauto.
Qed.
Lemma spacing_close_iff a b : spacing_close a b = true <->
  (qabs (fst a - fst b) <= Q2Qc (1 # 100000000) + Q2Qc (1 # 100000) * qabs (fst b)) /\
  (qabs (snd a - snd b) <= Q2Qc (1 # 100000000) + Q2Qc (1 # 100000) * qabs (snd b)).
Proof. unfold spacing_close, isclose. rewrite andb_true_iff, !qle_true. tauto. Qed.

Lemma average_ok_inv maps weights ex out : average_flow_data maps weights ex = Ok out -> exists spacing kx ky g records,
  get_spacing maps = Ok spacing /\ f_spacing (info out) = Some spacing /\
  rmapM (fun m => do s <- map_shape m; transfer_data kx ky (fst spacing) (snd spacing) g (rows (data m)) (fst s) (snd s))
    (filter (fun m => (negb ex || negb (Nat.eqb (List.length (rows (data m))) 0))%bool) maps) = Ok records.
Proof.
  intros H. unfold average_flow_data in H. destruct (get_spacing maps) as [s|]; [|discriminate]. cbn [rbind] in H.
  set (used := filter (fun m => (negb ex || negb (Nat.eqb (List.length (rows (data m))) 0))%bool) maps) in *.
  clearbody used. destruct used as [|m0 used]; [discriminate|].
  destruct (negb _) in H; [discriminate|].
  destruct (index_of "X" _) as [kx|] in H; [|discriminate]. cbn [rbind of_option] in H. destruct (index_of "Y" _) as [ky|] in H; [|discriminate]. cbn [rbind of_option] in H.
  destruct (get_combined_grid _ _ _ _ _ _) as [g|] in H; [|discriminate]. cbn [rbind] in H.
  match type of H with context [rmapM ?F (m0 :: used)] => destruct (rmapM F (m0 :: used)) as [recs|] eqn:ER end; [|discriminate]. cbn [rbind] in H.
  destruct (find_labels _ _) in H; [|discriminate]. cbn [rbind] in H. destruct (average_records _ _ _ _) in H; [|discriminate]. cbn [rbind] in H.
  injection H as <-. exists s, kx, ky, g, recs. cbn. auto.
Qed.

Lemma average_ok_spacing m0 maps weights ex out : average_flow_data (m0 :: maps) weights ex = Ok out ->
  exists dx dy, f_spacing (info m0) = Some (dx, dy) /\ f_spacing (info out) = Some (dx, dy) /\
    forall m, In m maps -> exists dx' dy', f_spacing (info m) = Some (dx', dy') /\
      (qabs (dx' - dx) <= Q2Qc (1 # 100000000) + Q2Qc (1 # 100000) * qabs dx) /\ (qabs (dy' - dy) <= Q2Qc (1 # 100000000) + Q2Qc (1 # 100000) * qabs dy).
Proof.
  intros H. destruct (average_ok_inv _ _ _ _ H) as ([dx dy] & kx & ky & g & recs & ES & EO & _). exists dx, dy.
  unfold get_spacing in ES. destruct (f_spacing (info m0)) as [s|]; [|destruct maps; discriminate].
  match type of ES with context [rmapM ?F _] => set (F' := F) in ES end. destruct (rmapM F' maps) eqn:E; simpl in ES; [|discriminate]. injection ES as ->.
  split; [reflexivity|]. split; [assumption|]. intros m Hm. destruct (rmapM_ok_in _ _ _ m E Hm) as (u & Hu). unfold F' in Hu.
  destruct (f_spacing (info m)) as [[dx' dy']|]; [|discriminate]. exists dx', dy'. split; [reflexivity|].
  destruct (spacing_close (dx', dy') (dx, dy)) eqn:EC; [|discriminate]. apply spacing_close_iff in EC. exact EC.
Qed.
Lemma average_bad_spacing m0 m dx dy dx' dy' weights ex :
  f_spacing (info m0) = Some (dx, dy) -> f_spacing (info m) = Some (dx', dy') ->
  ~ ((qabs (dx' - dx) <= Q2Qc (1 # 100000000) + Q2Qc (1 # 100000) * qabs dx) /\ (qabs (dy' - dy) <= Q2Qc (1 # 100000000) + Q2Qc (1 # 100000) * qabs dy)) ->
  average_flow_data [m0; m] weights ex = Err ValueErr.
Proof.
  intros H0 H1 HN. unfold average_flow_data, get_spacing. rewrite H0. simpl. rewrite H1.
  destruct (spacing_close (dx', dy') (dx, dy)) eqn:E; [|reflexivity]. apply spacing_close_iff in E. contradiction.
Qed.
Lemma average_ok_shape maps weights ex out m : average_flow_data maps weights ex = Ok out -> In m maps ->
  (ex = true -> rows (data m) <> []) ->
  exists nx ny, f_shape (info m) = Some (nx, ny) /\ List.length (rows (data m)) = (Z.to_nat ny * Z.to_nat nx)%nat.
Proof.
  intros H Hm Hex. destruct (average_ok_inv _ _ _ _ H) as (s & kx & ky & g & recs & ES & EO & ER).
  destruct (rmapM_ok_in _ _ _ m ER) as (rec & Er).
  { apply filter_In. split; [assumption|]. destruct ex; [|reflexivity]. destruct (rows (data m)); [exfalso; apply Hex; reflexivity|reflexivity]. }
  unfold map_shape in Er. destruct (f_shape (info m)) as [[nx ny]|]; [|discriminate]. exists nx, ny. split; [reflexivity|].
  simpl in Er. unfold transfer_data in Er.
  destruct (col_min kx (g_rows g)); [|discriminate]. destruct (col_min ky (g_rows g)); [|discriminate].
  destruct (col_min kx (rows (data m))); [|discriminate]. destruct (col_min ky (rows (data m))); [|discriminate]. cbn [rbind] in Er.
  destruct (Nat.eqb (List.length (rows (data m))) (Z.to_nat ny * Z.to_nat nx)) eqn:E; [|discriminate]. apply Nat.eqb_eq in E. exact E.
Qed.
Lemma average_empty_raises maps weights m out : In m maps -> rows (data m) = [] -> average_flow_data maps weights false <> Ok out.
Proof.
  intros Hm E H. destruct (average_ok_inv _ _ _ _ H) as (s & kx & ky & g & recs & ES & EO & ER).
  destruct (rmapM_ok_in _ _ _ m ER) as (rec & Er). { apply filter_In. auto. }
  destruct (map_shape m); [|discriminate]. simpl in Er. unfold transfer_data in Er. rewrite E in Er.
  destruct (col_min kx (g_rows g)); [|discriminate]. destruct (col_min ky (g_rows g)); discriminate.
Qed.
Lemma get_spacing_uniform maps dx dy : maps <> [] -> (forall m, In m maps -> f_spacing (info m) = Some (dx, dy)) -> get_spacing maps = Ok (dx, dy).
Proof.
  intros Hne H. destruct maps as [|m maps]; [congruence|]. unfold get_spacing. rewrite (H m (or_introl eq_refl)).
  rewrite (rmapM_ok_map _ (fun _ => tt)); [reflexivity|]. intros m' Hm'. rewrite (H m' (or_intror Hm')), spacing_close_refl. reflexivity.
Qed.
Lemma filter_twice {A} (f : A -> bool) l : filter f (filter f l) = filter f l.
Proof. induction l as [|a l IH]; simpl; [reflexivity|]. destruct (f a) eqn:E; simpl; rewrite ?E, ?IH; reflexivity. Qed.
Lemma average_excludes maps weights dx dy : (forall m, In m maps -> f_spacing (info m) = Some (dx, dy)) ->
  average_flow_data maps weights true =
  average_flow_data (filter (fun m => negb (Nat.eqb (List.length (rows (data m))) 0)) maps) weights true.
Proof.
  intros H. unfold average_flow_data. cbn [negb orb]. rewrite filter_twice.
  destruct maps as [|m0 maps]; [reflexivity|]. rewrite (get_spacing_uniform _ dx dy) by (try discriminate; assumption). cbn [rbind].
  destruct (filter _ (m0 :: maps)) as [|m1 used] eqn:EF; [reflexivity|].
  rewrite (get_spacing_uniform (m1 :: used) dx dy); [reflexivity|discriminate|].
  intros m Hm. apply H. rewrite <- EF in Hm. apply filter_In in Hm. tauto.
Qed.
Lemma average_all_empty maps weights dx dy : (forall m, In m maps -> f_spacing (info m) = Some (dx, dy) /\ rows (data m) = []) ->
  average_flow_data maps weights true = Err ValueErr.
Proof.
  intros H. rewrite (average_excludes _ _ dx dy) by (intros; apply H; assumption).
  replace (filter _ maps) with (@nil flow); [reflexivity|].
  symmetry. induction maps as [|m maps IH]; [reflexivity|]. simpl. rewrite (proj2 (H m (or_introl eq_refl))). simpl. apply IH. intros; apply H; simpl; auto.
Qed.
Lemma average_records_total kx ky weights first records : (forall d, In d records -> List.length d = List.length first) ->
  exists avg, average_records kx ky weights (first :: records) = Ok avg.
Proof.
  intros H. unfold average_records. replace (forallb _ (first :: records)) with true; [eexists; reflexivity|].
  symmetry. apply forallb_forall. intros d [<-|Hd]; apply Nat.eqb_eq; auto.
Qed.
