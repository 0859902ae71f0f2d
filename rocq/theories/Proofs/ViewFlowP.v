(** Proofs about drawn maps. *)
From Coq Require Import String Permutation.
From Verif.Base Require Import QcX Res Np Sort Sums ListX.
From Verif.Model Require Import Bins Flow Sample ViewFlow.
From Verif.Spec Require Import FlowSpec GridSpec FieldSpec ViewFlowSpec.
From Verif.Proofs Require Import FlowP SampleP.
Local Open Scope Qc_scope.
Local Open Scope list_scope.

(** *** Fields and masks *)
Lemma index_in l ls : In l ls -> exists k, index_of l ls = Some k.
Proof.
  induction ls as [|a ls IH]; [intros []|]. intros H. simpl. destruct (String.eqb_spec l a) as [->|N]; [eauto|]. destruct H as [<-|H]; [congruence|]. destruct (IH H) as (k & ->). simpl. eauto.
Qed.
Lemma index_notin l ls : ~ In l ls -> index_of l ls = None.
Proof. induction ls as [|a ls IH]; intros H; [reflexivity|]. simpl. destruct (String.eqb_spec l a) as [->|N]; [simpl in H; tauto|]. rewrite IH; [reflexivity|]. simpl in H. tauto. Qed.
Lemma field_known l t : In l (labels t) -> field l t = Ok (map (fld (labels t) l) (rows t)).
Proof.
  intros H. unfold field, get_data. destruct (index_in l _ H) as (k & E). rewrite E. cbn [of_option]. f_equal. apply map_ext. intros r. unfold fld, col. rewrite E. reflexivity.
Qed.
Lemma get_data_known l t : In l (labels t) -> get_data l t = Some (map (fld (labels t) l) (rows t)).
Proof.
  intros H. unfold get_data. destruct (index_in l _ H) as (k & E). rewrite E. f_equal. apply map_ext. intros r. unfold fld, col. rewrite E. reflexivity.
Qed.
Lemma field_unknown l t : ~ In l (labels t) -> field l t = Err ValueErr.
Proof. intros H. unfold field, get_data. rewrite (index_notin _ _ H). reflexivity. Qed.
Lemma and_masks_map {A} (f g : A -> bool) l : and_masks (map f l) (map g l) = map (fun a => (f a && g a)%bool) l.
Proof. unfold and_masks. induction l as [|a l IH]; [reflexivity|]. simpl. f_equal. exact IH. Qed.
Lemma masked_map {A B} (p : A -> bool) (f : A -> B) l : masked (map p l) (map f l) = map f (filter p l).
Proof. unfold masked. induction l as [|a l IH]; [reflexivity|]. simpl. destruct (p a); simpl; [f_equal|]; exact IH. Qed.

(** [cut_system] is the limits, if there is any value *)
Lemma cut_system_ok {A} (f : A -> Qc) (l : list A) lims : l <> [] ->
  exists p, cut_system (map f l) lims = Ok (map p l) /\ forall a, In a l -> (p a = true <-> inside (fst lims) (snd lims) (f a)).
Proof.
  intros Hne. destruct (list_min (map f l)) as [lo|] eqn:E1; [|apply list_min_none in E1; destruct l; [tauto|discriminate]].
  destruct (list_max (map f l)) as [hi|] eqn:E2; [|apply list_max_none in E2; destruct l; [tauto|discriminate]].
  apply list_min_spec in E1 as E1'. apply list_max_spec in E2 as E2'. destruct E1' as [_ L], E2' as [_ H]. destruct lims as [[a|] [b|]]; unfold cut_system; cbn [fst snd]; rewrite ?E1, ?E2; cbn [of_option rbind]; rewrite map_map;
  eexists; (split; [reflexivity|]); intros c Hc; cbn beta; rewrite Bool.andb_true_iff, !qle_true; assert (In (f c) (map f l)) as Hf by (apply in_map; exact Hc); specialize (L _ Hf); specialize (H _ Hf); unfold inside.
  - split; [intros [? ?]; split; intros ? [= <-]; assumption|]. intros [I J]. split; auto.
  - split; [intros [? ?]; split; [intros ? [= <-]; assumption|discriminate]|]. intros [I J]. split; auto.
  - split; [intros [? ?]; split; [discriminate|intros ? [= <-]; assumption]|]. intros [I J]. split; auto.
  - split; [intros _; split; discriminate|]. intros _. split; assumption.
Qed.
Lemma selects_of {A} (P : A -> Prop) (p : A -> bool) l : (forall a, In a l -> (p a = true <-> P a)) -> selects P l (filter p l).
Proof. intros H. apply selects_filter. exact H. Qed.

Lemma quiver_ok t fl cl colour clim xlim ylim : rows t <> [] -> In (fst fl) (labels t) -> In (snd fl) (labels t) -> In (fst cl) (labels t) -> In (snd cl) (labels t) ->
  (forall l, fst clim = Some l -> In l (labels t)) ->
  exists sel, selects (fun r => both_components (labels t) (fst fl) (snd fl) r /\ visible (labels t) (fst cl) (snd cl) clim xlim ylim r) (rows t) sel /\
    get_quiver_data t fl cl colour clim xlim ylim =
      Ok [map (fld (labels t) (fst cl)) sel; map (fld (labels t) (snd cl)) sel; map (fld (labels t) (fst fl)) sel; map (fld (labels t) (snd fl)) sel;
          map (fun r => match colour with Some c => if existsb (String.eqb c) (labels t) then fld (labels t) c r else 1 | None => 1 end) sel].
Proof.
  intros Hne H1 H2 H3 H4 HC. set (ls := labels t) in *.
  destruct (cut_system_ok (fld ls (fst cl)) (rows t) xlim Hne) as (px & EX & PX). destruct (cut_system_ok (fld ls (snd cl)) (rows t) ylim Hne) as (py & EY & PY).
  assert (exists pc, (match fst clim with None => Ok (map pc (rows t)) | Some l => do cs <- field l t; cut_system cs (snd clim, None) end = Ok (map pc (rows t))) /\
     forall r, In r (rows t) -> (pc r = true <-> forall l, fst clim = Some l -> inside (snd clim) None (fld ls l r))) as (pc & EC & PC).
  { destruct (fst clim) as [l|].
    - rewrite field_known by (apply HC; reflexivity). cbn [rbind]. destruct (cut_system_ok (fld ls l) (rows t) (snd clim, None) Hne) as (pc & EC & PC). exists pc. split; [exact EC|]. intros r Hr. rewrite (PC r Hr). cbn [fst snd]. split; [intros I l' [= <-]; exact I|]. intros I. apply I. reflexivity.
    - exists (fun _ => true). split; [reflexivity|]. intros r _. split; [discriminate|reflexivity]. }
  set (q := fun r => (negb (qeq (fld ls (fst fl) r) 0) && negb (qeq (fld ls (snd fl) r) 0) && px r && py r && pc r)%bool).
  exists (filter q (rows t)). split.
  - apply selects_of. intros r Hr. unfold q, both_components, visible. rewrite !Bool.andb_true_iff, (PX r Hr), (PY r Hr), (PC r Hr), !Bool.negb_true_iff, !qeq_false. tauto.
  - unfold get_quiver_data. rewrite !field_known by assumption. fold ls. cbn [rbind]. rewrite EX. cbn [rbind]. rewrite EY. cbn [rbind]. rewrite !map_map, !and_masks_map.
    set (base := fun a : list Qc => (_ && py a)%bool).
    assert ((match fst clim with None => Ok (map base (rows t)) | Some l => do cs <- field l t; do cc <- cut_system cs (snd clim, None); Ok (and_masks (map base (rows t)) cc) end) = Ok (map q (rows t))) as EQ.
    { destruct (fst clim) as [l|].
      - destruct (field l t) as [cs|]; [|discriminate]. cbn [rbind] in *. rewrite EC. cbn [rbind]. rewrite and_masks_map. reflexivity.
      - f_equal. apply map_ext_in. intros r Hr. unfold q, base. assert (pc r = true) as ->; [apply PC; [exact Hr|discriminate]|]. rewrite Bool.andb_true_r. reflexivity. }
    rewrite EQ. cbn [rbind]. f_equal. cbn [map]. rewrite !masked_map.
    assert (match colour with Some c => match get_data c t with Some ws => ws | None => map (fun _ => 1) (rows t) end | None => map (fun _ => 1) (rows t) end =
      map (fun r => match colour with Some c => if existsb (String.eqb c) ls then fld ls c r else 1 | None => 1 end) (rows t)) as ->.
    { destruct colour as [c|]; [|reflexivity]. destruct (existsb (String.eqb c) ls) eqn:E.
      - apply existsb_exists in E. destruct E as (c' & Hc & E). apply String.eqb_eq in E. subst c'. rewrite (get_data_known c t Hc). reflexivity.
      - assert (~ In c ls) as N. { intros Hc. assert (existsb (String.eqb c) ls = true) by (apply existsb_exists; exists c; split; [exact Hc|apply String.eqb_refl]). congruence. }
        unfold get_data. fold ls. rewrite (index_notin _ _ N). reflexivity. }
    rewrite masked_map. reflexivity.
Qed.

(** *** Limits *)
Lemma lim_fold t : forall rest inds, (forall p, In p rest -> In (fst p) (labels t)) ->
  fold_left (fun acc p => do inds <- acc; do ws <- field (fst p) t; Ok (intersect1d inds (get_indices ws (snd p)))) rest (Ok inds) =
  Ok (filter (fun i => forallb (fun p => existsb (Nat.eqb i) (get_indices (map (fld (labels t) (fst p)) (rows t)) (snd p))) rest) inds).
Proof.
  induction rest as [|p rest IH]; intros inds H; cbn [fold_left forallb].
  - f_equal. symmetry. clear. induction inds as [|a l IH]; [reflexivity|]. simpl. f_equal. exact IH.
  - cbn [rbind]. rewrite field_known by (apply H; left; reflexivity). cbn [rbind]. rewrite IH by (intros; apply H; right; assumption). f_equal. unfold intersect1d.
    clear. induction inds as [|a l IH]; [reflexivity|]. simpl. destruct (existsb (Nat.eqb a) _) eqn:E; simpl; [|exact IH]. destruct (forallb _ rest); simpl; [f_equal|]; exact IH.
Qed.
Lemma get_indices_in vs lims i : In i (get_indices vs lims) <-> (i < List.length vs)%nat /\ inside (fst lims) (snd lims) (nth i vs 0).
Proof.
  unfold get_indices. rewrite filter_In, in_seq. destruct lims as [[a|] [b|]]; unfold within, inside; cbn [fst snd]; rewrite Bool.andb_true_iff, ?qle_true.
  - split; [intros (H & I & J); split; [lia|]; split; intros ? [= <-]; assumption|intros (H & I & J); split; [lia|auto]].
  - split; [intros (H & I & J); split; [lia|]; split; [intros ? [= <-]; assumption|discriminate]|intros (H & I & J); split; [lia|auto]].
  - split; [intros (H & I & J); split; [lia|]; split; [discriminate|intros ? [= <-]; assumption]|intros (H & I & J); split; [lia|auto]].
  - split; [intros (H & I & J); split; [lia|]; split; discriminate|intros (H & I & J); split; [lia|auto]].
Qed.

(** *** Gradients *)
Lemma gradient1_linear a b x h n k f : h <> 0 -> (2 <= n)%nat -> (k < n)%nat -> (forall m, (m < n)%nat -> f m = a + b * (x + NQ m * h)) ->
  forall h', h' <> 0 -> gradient1 f n h' k = b * (h / h').
Proof.
  intros Hh Hn Hk HF h' Hh'. unfold gradient1. assert (ZQ 2 <> 0) as H2 by discriminate. assert (ZQ 2 = 1 + 1) as E2 by (apply Qc_is_canon; reflexivity).
  destruct (Nat.eqb_spec k 0) as [->|Hk0].
  - rewrite !HF by lia. rewrite NQ_S, NQ_0. field. exact Hh'.
  - destruct (Nat.eqb_spec k (n - 1)) as [->|Hk1].
    + destruct n as [|[|m]]; try lia. replace (S (S m) - 1)%nat with (S m) by lia. replace (S (S m) - 2)%nat with m by lia. rewrite !HF by lia. rewrite NQ_S. field. exact Hh'.
    + destruct k as [|k]; [congruence|]. replace (S k + 1)%nat with (S (S k)) by lia. replace (S k - 1)%nat with k by lia. rewrite !HF by lia. rewrite !NQ_S. rewrite E2 in *. field. split; assumption.
Qed.
Lemma gradients_on_grid data x0 y0 dx dy nx ny fi m0 a b o n : bins_on_grid data x0 y0 dx dy nx ny -> (2 <= nx)%nat -> (2 <= ny)%nat -> linear_density data m0 a b ->
  fi = mkFinfo (Some (Z.of_nat nx, Z.of_nat ny)) o (Some (dx, dy)) n ->
  mass_gradients data fi = Ok (map (fun r => (r, (a * (dx / dy), b * (dy / dx)))) (sort_bins data)).
Proof.
  intros HG Hnx Hny HL ->. unfold mass_gradients. cbn [f_shape f_spacing]. rewrite !Nat2Z.id. cbv zeta.
  set (pt := pt data x0 y0 dx dy). rewrite (sort_grid data x0 y0 dx dy nx ny HG). fold pt. rewrite grid_length, Nat.eqb_refl. cbn [negb].
  destruct (Nat.ltb_spec nx 2); [lia|]. destruct (Nat.ltb_spec ny 2); [lia|]. cbn [orb]. f_equal.
  assert (dx <> 0) as Hdx by (apply qpos_nz, HG). assert (dy <> 0) as Hdy by (apply qpos_nz, HG).
  assert (forall i j, (i < nx)%nat -> (j < ny)%nat -> bM (nth (j * nx + i) (grid ny nx pt) bin0) = m0 + a * (x0 + NQ i * dx) + b * (y0 + NQ j * dy)) as AT.
  { intros i j Hi Hj. rewrite grid_nth by assumption. destruct (pt_spec data x0 y0 dx dy nx ny HG i j Hi Hj) as (HI & EX & EY). fold pt in HI, EX, EY. rewrite (HL _ HI), EX, EY. reflexivity. }
  transitivity (combine (grid ny nx pt) (map (fun _ => (a * (dx / dy), b * (dy / dx))) (grid ny nx pt))); [|generalize (grid ny nx pt); intros l; induction l as [|c l IH]; [reflexivity|]; simpl; f_equal; exact IH].
  f_equal. rewrite grid_map. apply grid_ext. intros j i Hj Hi. f_equal.
  - apply (gradient1_linear (m0 + b * (y0 + NQ j * dy)) a x0 dx nx i); try assumption. intros m Hm. rewrite AT by assumption. ring.
  - apply (gradient1_linear (m0 + a * (x0 + NQ i * dx)) b y0 dy ny j); try assumption. intros m Hm. rewrite AT by assumption. ring.
Qed.

(** *** Histogram cells *)
Lemma hist_cell_grid x0 dx n i : 0 < dx -> (i < n)%nat -> (2 <= n)%nat -> hist_cell x0 (x0 + NQ (n - 1) * dx) n (x0 + NQ i * dx) = Z.of_nat i.
Proof.
  intros Hd Hi Hn. unfold hist_cell. destruct (qeq_spec (x0 + NQ i * dx) (x0 + NQ (n - 1) * dx)) as [E|E].
  - destruct (Nat.eq_dec i (n - 1)) as [->|N]; [lia|]. exfalso. assert (i < n - 1)%nat as H by lia. apply (coord_lt x0 dx _ _ Hd) in H. rewrite E in H. qlra.
  - assert (i < n - 1)%nat as H. { assert (i <> n - 1)%nat by (intros ->; apply E; reflexivity). lia. }
    assert (0 < NQ (n - 1)) as HP. { replace 0 with (NQ 0) by apply NQ_0. apply NQ_lt. lia. }
    assert (NQ (n - 1) <> 0) as HN by (apply qpos_nz; exact HP).
    assert (NQ n = NQ (n - 1) + 1) as ENn by (replace n with (S (n - 1)) at 1 by lia; apply NQ_S).
    assert ((x0 + NQ i * dx - x0) / (x0 + NQ (n - 1) * dx - x0) * NQ n = NQ i + NQ i / NQ (n - 1)) as ->.
    { rewrite ENn. replace (x0 + NQ i * dx - x0) with (NQ i * dx) by ring. replace (x0 + NQ (n - 1) * dx - x0) with (NQ (n - 1) * dx) by ring. field. split; [exact HN|apply qpos_nz; exact Hd]. }
    assert (0 <= NQ i / NQ (n - 1) /\ NQ i / NQ (n - 1) < 1) as [B1 B2].
    { split; [apply qmult_nonneg; [apply NQ_nonneg|apply qc_lt_le, qinv_pos; exact HP]|].
      apply NQ_lt in H. assert (0 < (NQ (n - 1) - NQ i) * / NQ (n - 1)) as K by (apply qmult_pos; [qlra'|apply qinv_pos; exact HP]).
      replace ((NQ (n - 1) - NQ i) * / NQ (n - 1)) with (1 - NQ i / NQ (n - 1)) in K by (field; exact HN). qlra'. }
    apply qfloor_unique; change (ZQ (Z.of_nat i)) with (NQ i); generalize dependent (NQ i / NQ (n - 1)); intros; qlra'.
Qed.
Lemma hist_cell_one x0 : hist_cell (x0 - 1 / ZQ 2) (x0 + 1 / ZQ 2) 1 x0 = 0%Z.
Proof.
  unfold hist_cell. destruct (qeq_spec x0 (x0 + 1 / ZQ 2)) as [E|E]; [reflexivity|].
  replace ((x0 - (x0 - 1 / ZQ 2)) / (x0 + 1 / ZQ 2 - (x0 - 1 / ZQ 2)) * NQ 1) with (Q2Qc (1 # 2)); [reflexivity|].
  replace (x0 - (x0 - 1 / ZQ 2)) with (1 / ZQ 2) by ring. replace (x0 + 1 / ZQ 2 - (x0 - 1 / ZQ 2)) with (1 / ZQ 2 + 1 / ZQ 2) by ring. apply Qc_is_canon. reflexivity.
Qed.
Lemma hist_positions z d n (l : list Qc) i : 0 < d -> (0 < n)%nat -> (i < n)%nat -> (forall v, In v l <-> exists k, (k < n)%nat /\ v = z + NQ k * d) ->
  let r := hist_range l in hist_cell (fst r) (snd r) n (z + NQ i * d) = Z.of_nat i.
Proof.
  intros Hd Hn Hi H. assert (list_min l = Some z) as E1.
  { apply list_min_spec. split; [apply H; exists 0%nat; split; [lia|rewrite NQ_0; ring]|]. intros v Hv. apply H in Hv. destruct Hv as (k & Hk & ->). pose proof (qmult_nonneg _ _ (NQ_nonneg k) (qc_lt_le _ _ Hd)) as K. generalize dependent (NQ k * d). intros; qlra'. }
  assert (list_max l = Some (z + NQ (n - 1) * d)) as E2.
  { apply list_max_spec. split; [apply H; exists (n - 1)%nat; split; [lia|reflexivity]|]. intros v Hv. apply H in Hv. destruct Hv as (k & Hk & ->). destruct (Nat.eq_dec k (n - 1)) as [->|N]; [apply Qcle_refl|]. apply qc_lt_le. apply coord_lt; [exact Hd|lia]. }
  unfold hist_range. rewrite E1, E2. cbv zeta. destruct (qeq_spec z (z + NQ (n - 1) * d)) as [E|E]; cbn [fst snd].
  - assert (n = 1)%nat as ->. { destruct (Nat.eq_dec n 1) as [?|N]; [assumption|]. exfalso. assert (0 < n - 1)%nat as H0 by lia. apply (coord_lt z d _ _ Hd) in H0. rewrite <- E, NQ_0 in H0. replace (z + 0 * d) with z in H0 by ring. qlra. }
    assert (i = 0)%nat as -> by lia. replace (z + NQ (1 - 1) * d) with z by (simpl; rewrite NQ_0; ring). replace (z + NQ 0 * d) with z by (rewrite NQ_0; ring). apply hist_cell_one.
  - destruct (Nat.eq_dec n 1) as [->|N]; [exfalso; apply E; simpl; rewrite NQ_0; ring|]. apply hist_cell_grid; [exact Hd|exact Hi|lia].
Qed.
Lemma grid_permutation data x0 y0 dx dy nx ny : bins_on_grid data x0 y0 dx dy nx ny -> Permutation data (grid ny nx (pt data x0 y0 dx dy)).
Proof. intros HG. rewrite <- (sort_grid data x0 y0 dx dy nx ny HG). unfold sort_bins. apply isort_perm. Qed.
Lemma qsum_filter {A} (p : A -> bool) (f : A -> Qc) l : qsum (map f (filter p l)) = qsum (map (fun a => if p a then f a else 0) l).
Proof. induction l as [|a l IH]; [reflexivity|]. simpl. destruct (p a); rewrite ?map_cons, ?qsum_cons, IH; [reflexivity|ring]. Qed.
Lemma height_ok data x0 y0 dx dy nx ny V i j b : bins_on_grid data x0 y0 dx dy nx ny -> (i < nx)%nat -> (j < ny)%nat -> In b data -> bX b = x0 + NQ i * dx -> bY b = y0 + NQ j * dy ->
  height_map data V (nx, ny) i j = V b.
Proof.
  intros HG Hi Hj Hb EX EY. set (pt := pt data x0 y0 dx dy).
  pose proof (grid_permutation data x0 y0 dx dy nx ny HG) as HP. fold pt in HP.
  assert (forall k l, (k < nx)%nat -> (l < ny)%nat -> In (pt l k) data /\ bX (pt l k) = x0 + NQ k * dx /\ bY (pt l k) = y0 + NQ l * dy) as PT by (intros; apply (pt_spec data x0 y0 dx dy nx ny HG); assumption).
  assert (forall v, In v (map (fun p : Qc * Qc * Qc => fst (fst p)) (map (fun b => (bX b, bY b, V b)) data)) <-> exists k, (k < nx)%nat /\ v = x0 + NQ k * dx) as HX.
  { intros v. rewrite map_map. cbn [fst snd]. rewrite in_map_iff. split.
    - intros (c & <- & Hc). apply (Permutation_in _ HP) in Hc. apply in_grid in Hc. destruct Hc as (l & k & Hl & Hk & ->). exists k. split; [exact Hk|apply PT; assumption].
    - intros (k & Hk & ->). exists (pt j k). split; apply PT; assumption. }
  assert (forall v, In v (map (fun p : Qc * Qc * Qc => snd (fst p)) (map (fun b => (bX b, bY b, V b)) data)) <-> exists k, (k < ny)%nat /\ v = y0 + NQ k * dy) as HY.
  { intros v. rewrite map_map. cbn [fst snd]. rewrite in_map_iff. split.
    - intros (c & <- & Hc). apply (Permutation_in _ HP) in Hc. apply in_grid in Hc. destruct Hc as (l & k & Hl & Hk & ->). exists l. split; [exact Hl|apply PT; assumption].
    - intros (l & Hl & ->). exists (pt l i). split; apply PT; assumption. }
  destruct HG as (Hdx & Hdy & HL & HE).
  unfold height_map, hist2d. cbn [fst snd]. set (rx := hist_range _). set (ry := hist_range (map (fun p => snd (fst p)) _)).
  assert (forall k, (k < nx)%nat -> hist_cell (fst rx) (snd rx) nx (x0 + NQ k * dx) = Z.of_nat k) as CX by (intros k Hk; apply (hist_positions x0 dx nx _ k); auto; lia).
  assert (forall k, (k < ny)%nat -> hist_cell (fst ry) (snd ry) ny (y0 + NQ k * dy) = Z.of_nat k) as CY by (intros k Hk; apply (hist_positions y0 dy ny _ k); auto; lia).
  clearbody rx ry. rewrite qsum_filter, map_map. cbn [fst snd].
  rewrite (qsum_perm _ _ (Permutation_map _ HP)), grid_sum.
  assert (b = pt j i) as ->.
  { apply (Permutation_in _ HP) in Hb. apply in_grid in Hb. destruct Hb as (l & k & Hl & Hk & ->). destruct (PT k l Hk Hl) as (_ & X & Y). rewrite X in EX. rewrite Y in EY.
    assert (k = i) as ->. { destruct (Nat.lt_trichotomy k i) as [H|[H|H]]; [|exact H|]; exfalso; apply (coord_lt x0 dx _ _ Hdx) in H; rewrite EX in H; qlra. }
    assert (l = j) as ->; [|reflexivity]. destruct (Nat.lt_trichotomy l j) as [H|[H|H]]; [|exact H|]; exfalso; apply (coord_lt y0 dy _ _ Hdy) in H; rewrite EY in H; qlra. }
  rewrite (qsumn_single ny j) by (exact Hj || (intros l Hl Nl; apply qsumn_zero; intros k Hk; destruct (PT k l Hk Hl) as (_ & X & Y); rewrite X, Y, CX, CY by assumption; destruct (Z.eqb_spec (Z.of_nat l) (Z.of_nat j)); [lia|]; rewrite Bool.andb_false_r; reflexivity)).
  rewrite (qsumn_single nx i) by (exact Hi || (intros k Hk Nk; destruct (PT k j Hk Hj) as (_ & X & Y); rewrite X, Y, CX, CY by assumption; destruct (Z.eqb_spec (Z.of_nat k) (Z.of_nat i)); [lia|]; reflexivity)).
  destruct (PT i j Hi Hj) as (_ & X & Y). rewrite X, Y, CX, CY, !Z.eqb_refl by assumption. reflexivity.
Qed.
