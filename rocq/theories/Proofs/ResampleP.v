(** Down- and supersampling. *)
From Coq Require Import String Permutation.
From Verif.Base Require Import QcX Res Np Sums ListX Sort.
From Verif.Model Require Import Flow GridAverage Resample.
From Verif.Spec Require Import FlowSpec GridSpec.
From Verif.Proofs Require Import SimpleAverageP FlowP GridAverageP GridP.
Local Open Scope list_scope.

Lemma ZQ_nz z : (z <> 0)%Z -> ZQ z <> 0.
Proof. intros H E. change 0 with (ZQ 0) in E. apply ZQ_inj in E. contradiction. Qed.
Lemma qabs_lt x y : qabs x < y <-> - y < x /\ x < y.
Proof.
  unfold qabs. destruct (qle_spec 0 x) as [H|H]; [|apply Qcnot_le_lt in H];
  (split; [intros; split|intros [? ?]]); qlra'.
Qed.
Lemma scaled_lt u v d : 0 < d -> ZQ u * d < ZQ v * d <-> (u < v)%Z.
Proof.
  intros Hd. split; intros H.
  - destruct (Z_lt_ge_dec u v) as [|G]; [assumption|exfalso]. pose proof (lattice_mono 0 d v u Hd ltac:(lia)) as K.
    generalize dependent (ZQ u * d). generalize (ZQ v * d). intros; qlra.
  - destruct (qc_lt_trich (ZQ u * d) (ZQ v * d)) as [C|[C|C]]; [assumption| |]; exfalso.
    + assert (u = v) by (apply (lattice_inj 0 d); [assumption|rewrite C; reflexivity]). lia.
    + pose proof (lattice_le 0 d v u Hd) as K. assert (v <= u)%Z; [|lia]. apply K. generalize dependent (ZQ u * d). generalize (ZQ v * d). intros; qlra'.
Qed.

(** Which bins are in the area of a combined bin. *)
Lemma area_index z d b I a : 0 < d -> (0 < b)%nat ->
  qabs (z + NQ a * d - (z + Q2Qc (1 # 2) * (d * NQ b - d) + d * NQ b * NQ I)) < d * NQ b / ZQ 2 <-> (b * I <= a < b * I + b)%nat.
Proof.
  intros Hd Hb.
  set (t := (2 * (Z.of_nat a - Z.of_nat b * Z.of_nat I) - (Z.of_nat b - 1))%Z).
  assert (z + NQ a * d - (z + Q2Qc (1 # 2) * (d * NQ b - d) + d * NQ b * NQ I) = ZQ t * (d / ZQ 2)) as ->.
  { unfold t. rewrite !ZQ_sub, !ZQ_mul, !ZQ_sub, !ZQ_mul. unfold NQ. change (Q2Qc (1 # 2)) with (/ ZQ 2). change (ZQ 1) with 1. field. apply ZQ_nz; lia. }
  replace (d * NQ b / ZQ 2) with (ZQ (Z.of_nat b) * (d / ZQ 2)) by (unfold NQ; field; apply ZQ_nz; lia).
  rewrite qabs_lt. replace (- (ZQ (Z.of_nat b) * (d / ZQ 2))) with (ZQ (- Z.of_nat b) * (d / ZQ 2)) by (rewrite ZQ_opp; ring).
  assert (0 < d / ZQ 2) as Hh. { assert (0 < ZQ 2) by (apply qlt_true; reflexivity). unfold Qcdiv. replace (d * / ZQ 2) with (d * Q2Qc (1 # 2)) by reflexivity. qlra'. }
  rewrite !scaled_lt by assumption. unfold t. nia.
Qed.

Lemma label_indices_ok ls weights : (forall l w, In (l, w) weights -> In l ls /\ In w ls) ->
  exists ws, label_indices ls weights = Ok ws /\
    Forall2 (fun lw kk => index_of (fst lw) ls = Some (fst kk) /\ index_of (snd lw) ls = Some (snd kk)) weights ws.
Proof.
  induction weights as [|[l w] weights IH]; intros H; unfold label_indices; simpl; [eauto|].
  destruct (H l w (or_introl eq_refl)) as [H1 H2]. destruct (index_of_some _ _ H1) as (k & E1). destruct (index_of_some _ _ H2) as (k' & E2).
  rewrite E1, E2. simpl. destruct IH as (ws & E & HF); [intros; apply H; simpl; auto|]. unfold label_indices in E. rewrite E. simpl. eauto.
Qed.
Lemma coord_indices_ok ls kx ky : index_of "X"%string ls = Some kx -> index_of "Y"%string ls = Some ky -> coord_indices ls = Ok (kx, ky).
Proof. intros H1 H2. unfold coord_indices. rewrite H1, H2. reflexivity. Qed.

(** folds of set_col *)
Section Folds.
Context (v : nat * nat -> Qc).
Definition put (r : record) (lw : nat * nat) : record := set_col (fst lw) (v lw) r.
Lemma fold_put_length ws : forall r, List.length (fold_left put ws r) = List.length r.
Proof. induction ws as [|lw ws IH]; intros r; simpl; [reflexivity|]. rewrite IH. apply set_col_length. Qed.
Lemma fold_put_other ws k : ~ In k (map fst ws) -> forall r, col k (fold_left put ws r) = col k r.
Proof.
  induction ws as [|[l w] ws IH]; intros N r; simpl; [reflexivity|]. simpl in N. rewrite IH by tauto. unfold put. simpl. apply col_set_other. intros ->; tauto.
Qed.
Lemma fold_put_in ws l w : NoDup (map fst ws) -> In (l, w) ws -> forall r, (l < List.length r)%nat -> col l (fold_left put ws r) = v (l, w).
Proof.
  induction ws as [|[l' w'] ws IH]; intros ND HI r Hr; simpl; [destruct HI|]. simpl in ND. inversion ND as [|? ? N1 N2]; subst.
  destruct HI as [[= -> ->]|HI].
  - rewrite fold_put_other by assumption. unfold put. simpl. apply col_set_col. assumption.
  - apply IH; [assumption|assumption|]. unfold put. simpl. rewrite set_col_length. assumption.
Qed.
End Folds.

Lemma combined_record_fold kx ky ncol ws x y rows : exists start, List.length start = ncol /\
  (forall k, (k < ncol)%nat -> col k start = if Nat.eqb k kx then x else if Nat.eqb k ky then y else
                             if existsb (Nat.eqb k) (map fst ws) then 0 else qsum (map (col k) rows)) /\
  combined_record kx ky ncol ws x y rows = fold_left (put (fun lw => weighted_or_zero (fst lw) (snd lw) rows)) ws start.
Proof.
  eexists. split; [|split; [|reflexivity]].
  - rewrite map_length, seq_length. reflexivity.
  - intros k Hk. unfold col at 1.
    set (F := fun k => if Nat.eqb k kx then x else if Nat.eqb k ky then y else if existsb (Nat.eqb k) (map fst ws) then 0 else qsum (map (col k) rows)).
    rewrite (nth_indep _ 0 (F 0%nat)) by (rewrite map_length, seq_length; assumption). rewrite (map_nth F). rewrite seq_nth by assumption. reflexivity.
Qed.

(** weighted values *)
Lemma combine_map {A} (f g : A -> Qc) l : combine (map f l) (map g l) = map (fun a => (f a, g a)) l.
Proof. induction l as [|a l IH]; simpl; [reflexivity|]. rewrite IH. reflexivity. Qed.
Lemma weighted_mean_map {A} (v w : A -> Qc) l x : weighted_mean (map v l) (map w l) x <->
  x * qsum (map w l) = qsum (map (fun a => v a * w a) l) /\ (qsum (map w l) = 0 -> x = 0).
Proof. unfold weighted_mean. rewrite combine_map, map_map. reflexivity. Qed.
Lemma weighted_mean_perm {A} (v w : A -> Qc) l m x : Permutation l m -> weighted_mean (map v l) (map w l) x -> weighted_mean (map v m) (map w m) x.
Proof.
  intros P. rewrite !weighted_mean_map. rewrite (qsum_perm _ _ (Permutation_map w P)), (qsum_perm _ _ (Permutation_map (fun a => v a * w a) P)). tauto.
Qed.
Lemma weighted_or_zero_mean l w rows : (forall r, In r rows -> 0 <= col w r) ->
  weighted_mean (map (col l) rows) (map (col w) rows) (weighted_or_zero l w rows).
Proof.
  intros H. rewrite weighted_mean_map. unfold weighted_or_zero, np_average.
  destruct (qeq_spec (qsum (map (col w) rows)) 0) as [E|E]; cbn iota.
  - rewrite E. split; [|reflexivity].
    pose proof (nonneg_sum_zero (col w) rows H E) as Z. clear H E. induction rows as [|a rows IH]; simpl; [ring|].
    rewrite <- IH by (intros; apply Z; simpl; auto). rewrite (Z a (or_introl eq_refl)). ring.
  - split; [|contradiction]. rewrite combine_map, map_map. cbn [fst snd]. field. assumption.
Qed.

Section Down.
Variables (ls : list string) (kx ky : nat) (x0 y0 dx dy : Qc) (nx ny : nat).
Hypothesis HX : index_of "X"%string ls = Some kx.
Hypothesis HY : index_of "Y"%string ls = Some ky.
Hypothesis Hdx : 0 < dx.
Hypothesis Hdy : 0 < dy.
Hypothesis Hnx : (0 < nx)%nat.
Hypothesis Hny : (0 < ny)%nat.
Variables (bx by_ : nat).
Hypothesis Hbx : (0 < bx)%nat.
Hypothesis Hby : (0 < by_)%nat.
Variables (weights : list (string * string)) (ws : list (nat * nat)).
Hypothesis HW : names_ok ls weights.
Hypothesis Ews : label_indices ls weights = Ok ws.
Hypothesis HF : Forall2 (fun lw kk => index_of (fst lw) ls = Some (fst kk) /\ index_of (snd lw) ls = Some (snd kk)) weights ws.
Definition new_x := x0 + Q2Qc (1 # 2) * (dx * NQ bx - dx).
Definition new_y := y0 + Q2Qc (1 # 2) * (dy * NQ by_ - dy).
Definition new_info : finfo :=
  mkFinfo (Some (Z.of_nat (nx / bx), Z.of_nat (ny / by_))) (Some (new_x, new_y)) (Some (dx * NQ bx, dy * NQ by_))
          (Some (Z.of_nat (nx / bx) * Z.of_nat (ny / by_))%Z).
Definition new_rows (g : list record) : list record :=
  grid (ny / by_) (nx / bx) (fun j i => combined_record kx ky (List.length ls) ws (new_x + dx * NQ bx * NQ i) (new_y + dy * NQ by_ * NQ j)
                   (block_rows nx bx by_ i j g)).

Lemma down_ok xlim ylim f g sel : labels (data f) = ls -> f_spacing (info f) = Some (dx, dy) ->
  sel = filter (fun r => (within (fst xlim) (snd xlim) (col kx r) && within (fst ylim) (snd ylim) (col ky r))%bool) (rows (data f)) ->
  Permutation sel g -> regular ls x0 y0 dx dy nx ny g ->
  downsample bx by_ weights xlim ylim f = Ok (mkFlow (mkTable ls (new_rows g)) new_info).
Proof.
  intros Hls Hsp Esel P R. unfold downsample. rewrite Hls, (coord_indices_ok ls kx ky HX HY). cbn [rbind].
  unfold cut_system_limits. rewrite Hls, (coord_indices_ok ls kx ky HX HY). cbn [rbind]. rewrite <- Esel.
  assert (gridded ls x0 y0 dx dy nx ny sel) as G by (exists g; auto).
  rewrite (gridded_min_x ls kx ky x0 y0 dx dy nx ny HX HY Hdx sel Hnx Hny G). rewrite (gridded_min_y ls kx ky x0 y0 dx dy nx ny HX HY Hdy sel Hnx Hny G).
  cbn [rbind info data]. rewrite (gridded_count_x ls kx ky x0 y0 dx dy nx ny HX HY Hdx sel Hny G), (gridded_count_y ls kx ky x0 y0 dx dy nx ny HX HY Hdy sel Hnx G).
  unfold downscaled_info. cbn [f_spacing f_shape f_origin]. rewrite Hsp.
  replace (Nat.eqb bx 0 || Nat.eqb by_ 0)%bool with false by (symmetry; apply orb_false_iff; split; apply Nat.eqb_neq; lia).
  cbn [rbind]. rewrite (gridded_sort ls kx ky x0 y0 dx dy nx ny HX HY Hdx Hdy g sel P R). cbn [rbind f_shape f_origin f_spacing].
  cbn [rows]. rewrite !Nat2Z.id. rewrite (proj1 R), Nat.eqb_refl. cbn [negb].
  rewrite <- !Nat2Z.inj_div. rewrite !Nat2Z.id. fold new_x new_y. fold new_info.
  destruct (Nat.eqb (ny / by_ * (nx / bx)) 0) eqn:E0.
  - apply Nat.eqb_eq in E0. unfold new_rows.
    assert (grid (ny / by_) (nx / bx) (fun j i => combined_record kx ky (List.length ls) ws (new_x + dx * NQ bx * NQ i) (new_y + dy * NQ by_ * NQ j) (block_rows nx bx by_ i j g)) = []) as ->; [|reflexivity].
    apply length_zero_iff_nil. rewrite grid_length. assumption.
  - rewrite Ews. reflexivity.
Qed.

Lemma block_lt g i j : regular ls x0 y0 dx dy nx ny g -> (i < nx / bx)%nat -> (j < ny / by_)%nat ->
  forall b a, (b < by_)%nat -> (a < bx)%nat -> (by_ * j + b < ny)%nat /\ (bx * i + a < nx)%nat.
Proof.
  intros R Hi Hj b a Hb Ha. pose proof (Nat.mul_div_le nx bx). pose proof (Nat.mul_div_le ny by_). split; nia.
Qed.

(** the records in the area of a combined bin *)
Lemma block_area g i j B sel : Permutation sel g -> regular ls x0 y0 dx dy nx ny g -> (i < nx / bx)%nat -> (j < ny / by_)%nat ->
  selects (in_area ls (new_x + dx * NQ bx * NQ i) (new_y + dy * NQ by_ * NQ j) (dx * NQ bx) (dy * NQ by_)) sel B ->
  Permutation B (block_rows nx bx by_ i j g).
Proof.
  intros P R Hi Hj HS.
  set (p := fun r => (qlt (qabs (fld ls "X" r - (new_x + dx * NQ bx * NQ i))) (dx * NQ bx / ZQ 2) &&
                      qlt (qabs (fld ls "Y" r - (new_y + dy * NQ by_ * NQ j))) (dy * NQ by_ / ZQ 2))%bool).
  assert (B = filter p sel) as ->.
  { apply (selects_fun _ _ _ HS). apply selects_filter. intros r _. unfold p, in_area. rewrite andb_true_iff, !qlt_true. reflexivity. }
  etransitivity; [apply Permutation_filter; exact P|]. rewrite (reg_eq_grid ls x0 y0 dx dy nx ny g R) at 1.
  set (pj := fun j' => qlt (qabs (y0 + NQ j' * dy - (new_y + dy * NQ by_ * NQ j))) (dy * NQ by_ / ZQ 2)).
  set (pi := fun i' => qlt (qabs (x0 + NQ i' * dx - (new_x + dx * NQ bx * NQ i))) (dx * NQ bx / ZQ 2)).
  rewrite (filter_grid ny nx _ p pj pi).
  2:{ intros j' i' Hj' Hi'. unfold p, pj, pi. destruct (reg_row ls kx ky x0 y0 dx dy nx ny HX HY g i' j' R Hi' Hj') as (_ & A & B & _).
      rewrite (fld_col _ _ _ _ HX), (fld_col _ _ _ _ HY), A, B. apply andb_comm. }
  pose proof (Nat.mul_div_le nx bx). pose proof (Nat.mul_div_le ny by_).
  rewrite (filter_seq_interval pi (bx * i) bx nx).
  2:{ nia. } 2:{ intros a Ha. unfold pi. rewrite qlt_true. unfold new_x. apply area_index; assumption. }
  rewrite (filter_seq_interval pj (by_ * j) by_ ny).
  2:{ nia. } 2:{ intros a Ha. unfold pj. rewrite qlt_true. unfold new_y. apply area_index; assumption. }
  rewrite grid_of_seqs. unfold block_rows. apply Permutation_refl.
Qed.

Lemma new_record g i j : regular ls x0 y0 dx dy nx ny g -> (i < nx / bx)%nat -> (j < ny / by_)%nat ->
  let r := at_ (j * (nx / bx) + i) (new_rows g) in let B := block_rows nx bx by_ i j g in
  List.length r = List.length ls /\ fld ls "X" r = new_x + NQ i * (dx * NQ bx) /\ fld ls "Y" r = new_y + NQ j * (dy * NQ by_) /\
  (forall l, In l ls -> l <> "X"%string -> l <> "Y"%string -> ~ In l (map fst weights) -> fld ls l r = qsum (map (fld ls l) B)) /\
  (forall l w, In (l, w) weights -> (forall r', In r' B -> 0 <= fld ls w r') -> weighted_mean (map (fld ls l) B) (map (fld ls w) B) (fld ls l r)).
Proof.
  intros R Hi Hj r B. subst r. unfold at_, new_rows. rewrite grid_nth by assumption. fold B.
  destruct (combined_record_fold kx ky (List.length ls) ws (new_x + dx * NQ bx * NQ i) (new_y + dy * NQ by_ * NQ j) B) as (start & L & HS & ->).
  destruct (find_labels_in ls weights ws HF) as [I1 I2]. destruct HW as [ND HN].
  assert (forall l k, index_of l ls = Some k -> ~ In l (map fst weights) -> ~ In k (map fst ws)) as NI.
  { intros l k E N C. apply I2 in C. destruct C as (l' & C1 & C2). rewrite (index_inj ls _ _ _ E C2) in N. contradiction. }
  assert (forall l k, index_of l ls = Some k -> (k < List.length ls)%nat) as LT.
  { intros l k E. apply nth_error_Some. rewrite (index_of_spec _ _ _ E). discriminate. }
  assert (~ In "X"%string (map fst weights) /\ ~ In "Y"%string (map fst weights)) as [NX NY].
  { split; intros C; apply in_map_iff in C; destruct C as ([l w] & E & C); simpl in E; subst; destruct (HN _ _ C) as (_ & _ & _ & ? & ? & _); congruence. }
  assert (kx <> ky) as Hxy. { intros E. rewrite E in HX. assert ("X" = "Y")%string by exact (index_inj ls _ _ _ HX HY). discriminate. }
  split; [rewrite fold_put_length; assumption|].
  split. { rewrite (fld_col _ _ _ _ HX), fold_put_other by (eapply NI; eassumption). rewrite HS by (eapply LT; eassumption). rewrite Nat.eqb_refl. ring. }
  split. { rewrite (fld_col _ _ _ _ HY), fold_put_other by (eapply NI; eassumption). rewrite HS by (eapply LT; eassumption).
    rewrite Nat.eqb_refl. replace (Nat.eqb ky kx) with false by (symmetry; apply Nat.eqb_neq; auto). ring. }
  split.
  - intros l Hl N1 N2 NW. destruct (index_of_some _ _ Hl) as (k & E). rewrite (fld_col _ _ _ _ E), fold_put_other by (eapply NI; eassumption).
    rewrite HS by (eapply LT; eassumption).
    assert (k <> kx) as N3 by (intros ->; apply N1; exact (index_inj ls _ _ _ E HX)).
    assert (k <> ky) as N4 by (intros ->; apply N2; exact (index_inj ls _ _ _ E HY)).
    apply Nat.eqb_neq in N3, N4. rewrite N3, N4.
    destruct (existsb _ _) eqn:EE.
    + exfalso. apply existsb_exists in EE. destruct EE as (k' & Hk' & EE). apply Nat.eqb_eq in EE. subst k'. eapply NI; eassumption.
    + f_equal. apply map_ext. intros a. symmetry. apply fld_col. assumption.
  - intros l w Hlw Hp. destruct (HN l w Hlw) as (L1 & L2 & _). destruct (index_of_some _ _ L1) as (k & Ek). destruct (index_of_some _ _ L2) as (kw & Ew).
    rewrite (fld_col _ _ _ _ Ek). rewrite (fold_put_in _ ws k kw); [|eapply find_labels_nodup; eassumption|apply I1; exists l, w; auto|rewrite L; eapply LT; eassumption].
    rewrite (map_ext (fld ls l) (col k)) by (intros; apply fld_col; assumption). rewrite (map_ext (fld ls w) (col kw)) by (intros; apply fld_col; assumption).
    apply weighted_or_zero_mean. intros r' Hr'. rewrite <- (fld_col ls w) by assumption. apply Hp. assumption.
Qed.

Lemma block_rows_length g i j : List.length (block_rows nx bx by_ i j g) = (by_ * bx)%nat.
Proof. apply grid_length. Qed.
Lemma qmean_step (z d : Qc) n : (0 < n)%nat -> qsumn n (fun a => z + NQ a * d) = NQ n * (z + Q2Qc (1 # 2) * (d * NQ n - d)).
Proof.
  intros _. induction n as [|n IH]; [simpl; rewrite qsumn_0, NQ_0; ring|]. rewrite qsumn_S, IH, !NQ_S.
  change (Q2Qc (1 # 2)) with (/ ZQ 2). change (ZQ 2) with (1 + 1). field. apply (ZQ_nz 2). lia.
Qed.
Lemma block_mean g i j : regular ls x0 y0 dx dy nx ny g -> (i < nx / bx)%nat -> (j < ny / by_)%nat ->
  qmean (map (fld ls "X") (block_rows nx bx by_ i j g)) = new_x + NQ i * (dx * NQ bx) /\
  qmean (map (fld ls "Y") (block_rows nx bx by_ i j g)) = new_y + NQ j * (dy * NQ by_).
Proof.
  intros R Hi Hj. unfold qmean. rewrite !map_length, block_rows_length. unfold block_rows. rewrite !grid_sum.
  assert (NQ (by_ * bx) <> 0) as NZ by (apply NQ_nz; nia). assert (NQ bx <> 0) by (apply NQ_nz; lia). assert (NQ by_ <> 0) by (apply NQ_nz; lia).
  assert (forall b a, (b < by_)%nat -> (a < bx)%nat -> fld ls "X" (at_ ((by_ * j + b) * nx + (bx * i + a)) g) = x0 + NQ (bx * i) * dx + NQ a * dx /\
     fld ls "Y" (at_ ((by_ * j + b) * nx + (bx * i + a)) g) = y0 + NQ (by_ * j) * dy + NQ b * dy) as HP.
  { intros b a Hb Ha. destruct (block_lt g i j R Hi Hj b a Hb Ha) as [L1 L2].
    destruct (reg_row ls kx ky x0 y0 dx dy nx ny HX HY g (bx * i + a) (by_ * j + b) R L2 L1) as (_ & A & B & _).
    rewrite (fld_col _ _ _ _ HX), (fld_col _ _ _ _ HY), A, B, !NQ_add. split; ring. }
  split.
  - rewrite (qsumn_ext by_ _ (fun _ => NQ bx * (x0 + NQ (bx * i) * dx + Q2Qc (1 # 2) * (dx * NQ bx - dx)))).
    + rewrite qsumn_const, !NQ_mul. unfold new_x. field. split; assumption.
    + intros b Hb. rewrite <- qmean_step by assumption. apply qsumn_ext. intros a Ha. apply HP; assumption.
  - rewrite (qsumn_ext by_ _ (fun b => (y0 + NQ (by_ * j) * dy + NQ b * dy) * NQ bx)).
    + rewrite qsumn_scale_r, qmean_step by assumption. rewrite !NQ_mul. unfold new_y. field. split; assumption.
    + intros b Hb. rewrite <- qsumn_const. apply qsumn_ext. intros a Ha. apply HP; assumption.
Qed.

(** totals, when the blocks fill the grid *)
Lemma blocks_total (h : record -> Qc) g : List.length g = (ny * nx)%nat -> (nx / bx * bx = nx)%nat -> (ny / by_ * by_ = ny)%nat ->
  qsumn (ny / by_) (fun j => qsumn (nx / bx) (fun i => qsum (map h (block_rows nx bx by_ i j g)))) = qsum (map h g).
Proof.
  intros L Ex Ey. rewrite (qsum_blocks h g nx ny L). 
  assert (forall F, qsumn nx F = qsumn (nx / bx) (fun i => qsumn bx (fun a => F (i * bx + a)%nat))) as QX by (intros F; rewrite <- qsumn_mul, Ex; reflexivity).
  assert (forall F, qsumn ny F = qsumn (ny / by_) (fun i => qsumn by_ (fun a => F (i * by_ + a)%nat))) as QY by (intros F; rewrite <- qsumn_mul, Ey; reflexivity).
  rewrite QY.
  apply qsumn_ext. intros j Hj.
  transitivity (qsumn (nx / bx) (fun i => qsumn by_ (fun b => qsumn bx (fun a => h (at_ ((by_ * j + b) * nx + (bx * i + a)) g))))).
  - apply qsumn_ext. intros i Hi. unfold block_rows. apply grid_sum.
  - rewrite qsumn_swap. apply qsumn_ext. intros b Hb. rewrite QX. apply qsumn_ext. intros i Hi. apply qsumn_ext. intros a Ha.
    do 2 f_equal. rewrite (Nat.mul_comm by_ j), (Nat.mul_comm bx i). lia.
Qed.
End Down.

(** ** Supersampling *)
Lemma multiply_length ws : forall r, List.length (multiply ws r) = List.length r.
Proof. unfold multiply. induction ws as [|lw ws IH]; intros r; simpl; [reflexivity|]. rewrite IH. apply set_col_length. Qed.
Lemma multiply_other ws k : ~ In k (map fst ws) -> forall r, col k (multiply ws r) = col k r.
Proof.
  unfold multiply. induction ws as [|[l w] ws IH]; intros N r; simpl; [reflexivity|]. simpl in N. rewrite IH by tauto. simpl. apply col_set_other. intros ->; tauto.
Qed.
Lemma multiply_in ws l w : NoDup (map fst ws) -> In (l, w) ws -> (forall l' w', In (l', w') ws -> ~ In w' (map fst ws)) ->
  forall r, (l < List.length r)%nat -> col l (multiply ws r) = col l r * col w r.
Proof.
  induction ws as [|[l' w'] ws IH]; intros ND HI HN r Hr; [destruct HI|]. simpl in ND. inversion ND as [|? ? N1 N2]; subst.
  unfold multiply. cbn [fold_left]. fold (multiply ws (set_col l' (col l' r * col w' r) r)). cbn [fst snd].
  destruct HI as [[= -> ->]|HI].
  - rewrite multiply_other by assumption. apply col_set_col. assumption.
  - rewrite IH; [|assumption|assumption| |rewrite set_col_length; assumption].
    + assert (l <> l') by (intros ->; apply N1; apply in_map_iff; exists (l', w); auto).
      assert (w <> l'). { intros ->. apply (HN l l'); simpl; auto. }
      rewrite !col_set_other by assumption. reflexivity.
    + intros a b Hab C. apply (HN a b); simpl; auto.
Qed.

Lemma near_index z d n a i : 0 < d -> qabs (z + NQ a * d - (z + NQ i * d)) < NQ (2 * n + 1) * d / ZQ 2 <-> (i - n <= a <= i + n)%nat.
Proof.
  intros Hd.
  replace (z + NQ a * d - (z + NQ i * d)) with (ZQ (2 * (Z.of_nat a - Z.of_nat i)) * (d / ZQ 2)).
  2:{ rewrite ZQ_mul, ZQ_sub. unfold NQ. field. apply ZQ_nz; lia. }
  replace (NQ (2 * n + 1) * d / ZQ 2) with (ZQ (Z.of_nat (2 * n + 1)) * (d / ZQ 2)) by (unfold NQ; field; apply ZQ_nz; lia).
  rewrite qabs_lt. replace (- (ZQ (Z.of_nat (2 * n + 1)) * (d / ZQ 2))) with (ZQ (- Z.of_nat (2 * n + 1)) * (d / ZQ 2)) by (rewrite ZQ_opp; ring).
  assert (0 < d / ZQ 2) as Hh. { assert (0 < ZQ 2) by (apply qlt_true; reflexivity). unfold Qcdiv. replace (d * / ZQ 2) with (d * Q2Qc (1 # 2)) by reflexivity. qlra'. }
  rewrite !scaled_lt by assumption. lia.
Qed.

Section Super.
Variables (ls : list string) (kx ky : nat) (x0 y0 dx dy : Qc) (nx ny : nat).
Hypothesis HX : index_of "X"%string ls = Some kx.
Hypothesis HY : index_of "Y"%string ls = Some ky.
Hypothesis Hdx : 0 < dx.
Hypothesis Hdy : 0 < dy.
Hypothesis Hnx : (0 < nx)%nat.
Hypothesis Hny : (0 < ny)%nat.
Variable n : nat.
Hypothesis Hn : (2 <= n)%nat.
Variables (weights : list (string * string)) (ws : list (nat * nat)).
Hypothesis HW : names_ok ls weights.
Hypothesis Ews : label_indices ls weights = Ok ws.
Hypothesis HF : Forall2 (fun lw kk => index_of (fst lw) ls = Some (fst kk) /\ index_of (snd lw) ls = Some (snd kk)) weights ws.
Variable g : list record.
Hypothesis R : regular ls x0 y0 dx dy nx ny g.
Definition sx := dx / NQ n.
Definition sy := dy / NQ n.
Definition fine := finer kx ky n nx ny x0 y0 sx sy g.
Definition super_info : finfo :=
  mkFinfo (Some (Z.of_nat (nx * n), Z.of_nat (ny * n))) (Some (x0, y0)) (Some (sx, sy)) (Some (Z.of_nat (nx * n) * Z.of_nat (ny * n))%Z).
Definition super_rows := grid (ny * n) (nx * n) (resampled_record kx ky (n - 1) (nx * n) (ny * n) ws fine).

Lemma super_ok f : labels (data f) = ls -> f_spacing (info f) = Some (dx, dy) -> f_shape (info f) = Some (Z.of_nat nx, Z.of_nat ny) ->
  Permutation (rows (data f)) g -> supersample (Some n) weights f = Ok (mkFlow (mkTable ls super_rows) super_info).
Proof.
  intros Hls Hsp Hsh P. unfold supersample. destruct n as [|[|m]] eqn:En; [lia|lia|]. rewrite <- En in *.
  assert (sort_table (data f) = Ok (mkTable ls g)) as ->.
  { destruct f as [[ls' rs] i]. cbn in Hls, P |- *. subst ls'. apply (gridded_sort ls kx ky x0 y0 dx dy nx ny); assumption. }
  cbn [rbind]. rewrite Hls, (coord_indices_ok ls kx ky HX HY). cbn [rbind]. rewrite Hsh, Hsp.
  assert (gridded ls x0 y0 dx dy nx ny g) as G by (exists g; split; [apply Permutation_refl|assumption]).
  replace (Nat.eqb n 0) with false by (symmetry; apply Nat.eqb_neq; lia). cbn [rows].
  rewrite (gridded_min_x ls kx ky x0 y0 dx dy nx ny HX HY Hdx g Hnx Hny G). rewrite (gridded_min_y ls kx ky x0 y0 dx dy nx ny HX HY Hdy g Hnx Hny G).
  cbn [rbind]. rewrite !Nat2Z.id, (proj1 R), Nat.eqb_refl. cbn [negb]. rewrite Ews. cbn [rbind].
  unfold super_rows, super_info, fine, sx, sy. rewrite !Nat2Z.inj_mul. reflexivity.
Qed.

Lemma Hsx : 0 < sx.
Proof. unfold sx, Qcdiv. apply qmult_pos; [assumption|]. apply qinv_pos, NQ_pos. lia. Qed.
Lemma Hsy : 0 < sy.
Proof. unfold sy, Qcdiv. apply qmult_pos; [assumption|]. apply qinv_pos, NQ_pos. lia. Qed.
Lemma div_lt I N : (I < N * n)%nat -> (I / n < N)%nat.
Proof. intros H. apply Nat.div_lt_upper_bound; lia. Qed.
Lemma kxy : kx <> ky.
Proof. intros E. rewrite E in HX. assert ("X" = "Y")%string by exact (index_inj ls _ _ _ HX HY). discriminate. Qed.
Lemma kx_lt : (kx < List.length ls)%nat.
Proof. apply nth_error_Some. rewrite (index_of_spec _ _ _ HX). discriminate. Qed.
Lemma ky_lt : (ky < List.length ls)%nat.
Proof. apply nth_error_Some. rewrite (index_of_spec _ _ _ HY). discriminate. Qed.

Lemma fine_row J I : (J < ny * n)%nat -> (I < nx * n)%nat ->
  let r := at_ (J * (nx * n) + I) fine in let c := at_ ((J / n) * nx + I / n) g in
  List.length r = List.length ls /\ fld ls "X" r = x0 + NQ I * sx /\ fld ls "Y" r = y0 + NQ J * sy /\ In c g /\
  forall l, In l ls -> l <> "X"%string -> l <> "Y"%string -> fld ls l r = fld ls l c.
Proof.
  intros HJ HI r c. subst r. unfold fine, finer, at_. rewrite grid_nth by assumption.
  destruct (reg_row ls kx ky x0 y0 dx dy nx ny HX HY g (I / n) (J / n) R (div_lt _ _ HI) (div_lt _ _ HJ)) as (HC & _ & _ & L). fold c in HC, L. fold (at_ ((J / n) * nx + I / n) g). fold c.
  pose proof kxy as Hxy. pose proof kx_lt as LX. pose proof ky_lt as LY.
  split; [rewrite !set_col_length; assumption|].
  split. { rewrite (fld_col _ _ _ _ HX), col_set_other, col_set_col by (try assumption; rewrite L; assumption). ring. }
  split. { rewrite (fld_col _ _ _ _ HY), col_set_col by (rewrite set_col_length, L; assumption). ring. }
  split; [assumption|]. intros l Hl N1 N2. destruct (index_of_some _ _ Hl) as (k & E). rewrite !(fld_col _ _ _ _ E).
  assert (k <> kx) by (intros ->; apply N1; exact (index_inj ls _ _ _ E HX)).
  assert (k <> ky) by (intros ->; apply N2; exact (index_inj ls _ _ _ E HY)).
  rewrite !col_set_other by assumption. reflexivity.
Qed.
Lemma fine_regular : regular ls x0 y0 sx sy (nx * n) (ny * n) fine.
Proof.
  split; [apply grid_length|]. split.
  - intros r Hr. unfold fine, finer in Hr. apply in_grid in Hr. destruct Hr as (J & I & HJ & HI & ->).
    destruct (fine_row J I HJ HI) as (L & _). unfold fine, finer, at_ in L. rewrite grid_nth in L by assumption. exact L.
  - intros I J HI HJ. destruct (fine_row J I HJ HI) as (_ & A & B & _). split; assumption.
Qed.
Lemma fine_in r : In r fine -> exists J I, (J < ny * n)%nat /\ (I < nx * n)%nat /\ r = at_ (J * (nx * n) + I) fine.
Proof.
  intros H. destruct (reg_in ls x0 y0 sx sy (nx * n) (ny * n) fine r fine_regular H) as (I & J & HI & HJ & ->). exists J, I. auto.
Qed.

Lemma window_area J I B : (J < ny * n)%nat -> (I < nx * n)%nat ->
  selects (in_area ls (x0 + NQ I * sx) (y0 + NQ J * sy) (NQ (2 * n - 1) * sx) (NQ (2 * n - 1) * sy)) fine B ->
  B = window (n - 1) (nx * n) (ny * n) I J fine.
Proof.
  intros HJ HI HS.
  set (p := fun r => (qlt (qabs (fld ls "X" r - (x0 + NQ I * sx))) (NQ (2 * n - 1) * sx / ZQ 2) &&
                      qlt (qabs (fld ls "Y" r - (y0 + NQ J * sy))) (NQ (2 * n - 1) * sy / ZQ 2))%bool).
  assert (B = filter p fine) as ->.
  { apply (selects_fun _ _ _ HS). apply selects_filter. intros r _. unfold p, in_area. rewrite andb_true_iff, !qlt_true. reflexivity. }
  rewrite (reg_eq_grid ls x0 y0 sx sy (nx * n) (ny * n) fine fine_regular) at 1.
  set (pj := fun j => qlt (qabs (y0 + NQ j * sy - (y0 + NQ J * sy))) (NQ (2 * n - 1) * sy / ZQ 2)).
  set (pi := fun i => qlt (qabs (x0 + NQ i * sx - (x0 + NQ I * sx))) (NQ (2 * n - 1) * sx / ZQ 2)).
  rewrite (filter_grid (ny * n) (nx * n) _ p pj pi).
  2:{ intros j i Hj Hi. unfold p, pj, pi. destruct (fine_row j i Hj Hi) as (_ & -> & -> & _). apply andb_comm. }
  unfold window, around.
  rewrite (filter_seq_interval pi (I - (n - 1)) (Nat.min (I + (n - 1) + 1) (nx * n) - (I - (n - 1))) (nx * n)).
  2:{ lia. } 2:{ intros a Ha. unfold pi. replace (2 * n - 1)%nat with (2 * (n - 1) + 1)%nat by lia. rewrite qlt_true, near_index by apply Hsx. lia. }
  rewrite (filter_seq_interval pj (J - (n - 1)) (Nat.min (J + (n - 1) + 1) (ny * n) - (J - (n - 1))) (ny * n)).
  2:{ lia. } 2:{ intros a Ha. unfold pj. replace (2 * n - 1)%nat with (2 * (n - 1) + 1)%nat by lia. rewrite qlt_true, near_index by apply Hsy. lia. }
  reflexivity.
Qed.
Lemma window_in J I r d : In r (window (n - 1) (nx * n) (ny * n) I J d) -> exists J' I', (J' < ny * n)%nat /\ (I' < nx * n)%nat /\ r = at_ (J' * (nx * n) + I') d.
Proof.
  unfold window, around. intros H. apply in_flat_map in H. destruct H as (J' & HJ' & H). apply in_map_iff in H. destruct H as (I' & <- & HI').
  apply in_seq in HJ', HI'. exists J', I'. split; [lia|]. split; [lia|reflexivity].
Qed.
Lemma window_map J I (h : record -> record) : window (n - 1) (nx * n) (ny * n) I J (map h fine) = map h (window (n - 1) (nx * n) (ny * n) I J fine).
Proof.
  unfold window. rewrite flat_map_concat_map, (flat_map_concat_map _ (around (n - 1) (ny * n) J)), concat_map, map_map. f_equal. apply map_ext_in. intros J' HJ'. rewrite map_map. apply map_ext_in. intros I' HI'.
  unfold around in *. apply in_seq in HJ', HI'. unfold at_.
  assert (J' * (nx * n) + I' < List.length fine)%nat as HL. { rewrite (proj1 fine_regular). apply rm_lt; lia. }
  rewrite (nth_indep _ [] (h [])) by (rewrite map_length; assumption). apply map_nth.
Qed.

Lemma super_record J I : (J < ny * n)%nat -> (I < nx * n)%nat ->
  let r := at_ (J * (nx * n) + I) super_rows in let B := window (n - 1) (nx * n) (ny * n) I J fine in
  List.length r = List.length ls /\ fld ls "X" r = x0 + NQ I * sx /\ fld ls "Y" r = y0 + NQ J * sy /\
  (forall l, In l ls -> l <> "X"%string -> l <> "Y"%string -> ~ In l (map fst weights) -> fld ls l r = qmean (map (fld ls l) B)) /\
  (forall l w, In (l, w) weights -> (forall r', In r' B -> 0 <= fld ls w r') -> weighted_mean (map (fld ls l) B) (map (fld ls w) B) (fld ls l r)).
Proof.
  intros HJ HI r B. subst r. unfold at_, super_rows. rewrite grid_nth by assumption. unfold resampled_record.
  rewrite window_map. fold B. set (own := at_ (J * (nx * n) + I) fine). destruct (fine_row J I HJ HI) as (L & EX & EY & _). fold own in L, EX, EY.
  set (F := fun k => if (Nat.eqb k kx || Nat.eqb k ky || existsb (Nat.eqb k) (map fst ws))%bool then col k own else qmean (map (col k) (map (multiply ws) B))).
  set (start := map F (seq 0 (List.length own))).
  assert (forall k, (k < List.length ls)%nat -> col k start = F k) as HS.
  { intros k Hk. unfold col at 1, start. rewrite (nth_indep _ 0 (F 0%nat)) by (rewrite map_length, seq_length, L; assumption). rewrite (map_nth F), seq_nth by (rewrite L; assumption). reflexivity. }
  assert (List.length start = List.length ls) as LS by (unfold start; rewrite map_length, seq_length; assumption).
  set (val := fun lw : nat * nat => if qeq (qsum (map (col (snd lw)) (map (multiply ws) B))) 0 then 0 else
      qsum (map (col (fst lw)) (map (multiply ws) B)) / qsum (map (col (snd lw)) (map (multiply ws) B))).
  change (fold_left _ ws start) with (fold_left (put val) ws start).
  destruct (find_labels_in ls weights ws HF) as [I1 I2]. destruct HW as [ND HN].
  assert (forall l k, index_of l ls = Some k -> ~ In l (map fst weights) -> ~ In k (map fst ws)) as NI.
  { intros l k E N C. apply I2 in C. destruct C as (l' & C1 & C2). rewrite (index_inj ls _ _ _ E C2) in N. contradiction. }
  assert (forall l k, index_of l ls = Some k -> (k < List.length ls)%nat) as LT.
  { intros l k E. apply nth_error_Some. rewrite (index_of_spec _ _ _ E). discriminate. }
  assert (~ In "X"%string (map fst weights) /\ ~ In "Y"%string (map fst weights)) as [NX NY].
  { split; intros C; apply in_map_iff in C; destruct C as ([l w] & E & C); simpl in E; subst; destruct (HN _ _ C) as (_ & _ & _ & ? & ? & _); congruence. }
  assert (forall r', In r' B -> List.length r' = List.length ls) as LB.
  { intros r' Hr'. destruct (window_in _ _ _ _ Hr') as (J' & I' & HJ' & HI' & ->). apply (fine_row J' I' HJ' HI'). }
  split; [rewrite fold_put_length; assumption|].
  split. { rewrite <- EX, !(fld_col _ _ _ _ HX), fold_put_other by (eapply NI; eassumption). rewrite HS by (eapply LT; eassumption). unfold F. rewrite Nat.eqb_refl. reflexivity. }
  split. { rewrite <- EY, !(fld_col _ _ _ _ HY), fold_put_other by (eapply NI; eassumption). rewrite HS by (eapply LT; eassumption). unfold F. rewrite Nat.eqb_refl, orb_true_r. reflexivity. }
  split.
  - intros l Hl N1 N2 NW. destruct (index_of_some _ _ Hl) as (k & E). rewrite (fld_col _ _ _ _ E), fold_put_other by (eapply NI; eassumption).
    rewrite HS by (eapply LT; eassumption). unfold F.
    assert (k <> kx) as N3 by (intros ->; apply N1; exact (index_inj ls _ _ _ E HX)).
    assert (k <> ky) as N4 by (intros ->; apply N2; exact (index_inj ls _ _ _ E HY)).
    apply Nat.eqb_neq in N3, N4. rewrite N3, N4. cbn [orb].
    destruct (existsb _ _) eqn:EE.
    + exfalso. apply existsb_exists in EE. destruct EE as (k' & Hk' & EE). apply Nat.eqb_eq in EE. subst k'. eapply NI; eassumption.
    + f_equal. rewrite map_map. apply map_ext. intros a. rewrite multiply_other by (eapply NI; eassumption). symmetry. apply fld_col. assumption.
  - intros l w Hlw Hp. destruct (HN l w Hlw) as (L1 & L2 & L3 & _). destruct (index_of_some _ _ L1) as (k & Ek). destruct (index_of_some _ _ L2) as (kw & Ew).
    assert (In (k, kw) ws) as Hin by (apply I1; exists l, w; auto).
    assert (NoDup (map fst ws)) as NDw by (eapply find_labels_nodup; eassumption).
    rewrite (fld_col _ _ _ _ Ek). rewrite (fold_put_in _ ws k kw NDw Hin); [|rewrite LS; eapply LT; eassumption].
    unfold val. cbn [fst snd]. rewrite !map_map.
    rewrite (map_ext (fun x => col kw (multiply ws x)) (fld ls w)) by (intros a; rewrite multiply_other by (eapply NI; eassumption); symmetry; apply fld_col; assumption).
    rewrite (map_ext_in (fun x => col k (multiply ws x)) (fun x => fld ls l x * fld ls w x)).
    2:{ intros a Ha. rewrite (multiply_in ws k kw NDw Hin); [rewrite (fld_col _ _ _ _ Ek), (fld_col _ _ _ _ Ew); reflexivity| |].
        - intros k' kw' Hk' C. apply I1 in Hk'. destruct Hk' as (l' & w' & A1 & A2 & A3). destruct (HN l' w' A1) as (_ & _ & NN & _).
          apply I2 in C. destruct C as (l2 & C1 & C2). rewrite (index_inj ls _ _ _ A3 C2) in NN. contradiction.
        - rewrite (LB a Ha). eapply LT; eassumption. }
    rewrite weighted_mean_map. destruct (qeq_spec (qsum (map (fld ls w) B)) 0) as [E|E].
    + rewrite E. split; [|reflexivity]. pose proof (nonneg_sum_zero (fld ls w) B Hp E) as Z. clear -Z. induction B as [|a B' IH]; simpl; [ring|].
      rewrite <- IH by (intros; apply Z; simpl; auto). rewrite (Z a (or_introl eq_refl)). ring.
    + split; [field; assumption|contradiction].
Qed.
End Super.

(** ** Results *)
Section Results.
Variables (ls : list string) (x0 y0 dx dy : Qc) (nx ny : nat) (weights : list (string * string)) (f : flow).
Hypothesis HX : In "X"%string ls.
Hypothesis HY : In "Y"%string ls.
Hypothesis Hdx : 0 < dx.
Hypothesis Hdy : 0 < dy.
Hypothesis Hls : labels (data f) = ls.
Hypothesis Hsp : f_spacing (info f) = Some (dx, dy).
Hypothesis HG : gridded ls x0 y0 dx dy nx ny (rows (data f)).
Hypothesis HW : names_ok ls weights.

Lemma sel_filter kx ky xlim ylim l S : index_of "X"%string ls = Some kx -> index_of "Y"%string ls = Some ky -> selects (in_limits ls xlim ylim) l S ->
  S = filter (fun r => (within (fst xlim) (snd xlim) (col kx r) && within (fst ylim) (snd ylim) (col ky r))%bool) l.
Proof.
  intros EX EY HS. apply (selects_fun _ _ _ HS). apply selects_filter. intros r _. unfold in_limits.
  rewrite andb_true_iff, !within_spec, (fld_col _ _ _ _ EX), (fld_col _ _ _ _ EY). reflexivity.
Qed.
Lemma down_select xlim ylim S : selects (in_limits ls xlim ylim) (rows (data f)) S ->
  exists i0 j0 mx my, (i0 + mx <= nx)%nat /\ (j0 + my <= ny)%nat /\
    gridded ls (x0 + NQ i0 * dx) (y0 + NQ j0 * dy) dx dy mx my S.
Proof.
  intros HS. destruct (index_of_some _ _ HX) as (kx & EX). destruct (index_of_some _ _ HY) as (ky & EY).
  rewrite (sel_filter kx ky _ _ _ _ EX EY HS).
  destruct (gridded_filter ls kx ky x0 y0 dx dy nx ny _ xlim ylim EX EY Hdx Hdy HG) as (i0 & j0 & mx & my & A & B & _ & _ & C).
  exists i0, j0, mx, my. auto.
Qed.

Lemma down_result xlim ylim bx by_ S X0 Y0 mx my : (0 < bx)%nat -> (0 < by_)%nat ->
  selects (in_limits ls xlim ylim) (rows (data f)) S -> S <> [] -> gridded ls X0 Y0 dx dy mx my S ->
  exists out, downsample bx by_ weights xlim ylim f = Ok out /\ labels (data out) = ls /\
    let X1 := X0 + Q2Qc (1 # 2) * (dx * NQ bx - dx) in let Y1 := Y0 + Q2Qc (1 # 2) * (dy * NQ by_ - dy) in
    info out = mkFinfo (Some (Z.of_nat (mx / bx), Z.of_nat (my / by_))) (Some (X1, Y1)) (Some (dx * NQ bx, dy * NQ by_))
                       (Some (Z.of_nat (mx / bx) * Z.of_nat (my / by_))%Z) /\
    regular ls X1 Y1 (dx * NQ bx) (dy * NQ by_) (mx / bx) (my / by_) (rows (data out)) /\
    (forall r B, In r (rows (data out)) -> selects (in_area ls (fld ls "X" r) (fld ls "Y" r) (dx * NQ bx) (dy * NQ by_)) S B ->
       List.length B = (by_ * bx)%nat /\ fld ls "X" r = qmean (map (fld ls "X") B) /\ fld ls "Y" r = qmean (map (fld ls "Y") B) /\
       (forall l, In l ls -> l <> "X"%string -> l <> "Y"%string -> ~ In l (map fst weights) -> fld ls l r = qsum (map (fld ls l) B)) /\
       (forall l w, In (l, w) weights -> (forall r', In r' B -> 0 <= fld ls w r') -> weighted_mean (map (fld ls l) B) (map (fld ls w) B) (fld ls l r))) /\
    ((mx / bx * bx = mx)%nat -> (my / by_ * by_ = my)%nat ->
       (forall l, In l ls -> l <> "X"%string -> l <> "Y"%string -> ~ In l (map fst weights) ->
          qsum (map (fld ls l) (rows (data out))) = qsum (map (fld ls l) S)) /\
       (forall l w, In (l, w) weights -> (forall r', In r' S -> 0 <= fld ls w r') ->
          qsum (map (fun r => fld ls l r * fld ls w r) (rows (data out))) = qsum (map (fun r => fld ls l r * fld ls w r) S))).
Proof.
  intros Hbx Hby HS Hne (g & P & R).
  destruct (index_of_some _ _ HX) as (kx & EX). destruct (index_of_some _ _ HY) as (ky & EY).
  destruct (label_indices_ok ls weights) as (ws & Ews & HF). { intros l w H. destruct (proj2 HW l w H) as (? & ? & _). auto. }
  assert (0 < mx /\ 0 < my)%nat as [Hmx Hmy].
  { pose proof (Permutation_length P) as L. rewrite (proj1 R) in L. destruct S as [|s S']; [congruence|]. simpl in L.
    destruct mx, my; simpl in L; try lia. }
  pose proof (down_ok ls kx ky X0 Y0 dx dy mx my EX EY Hdx Hdy Hmx Hmy bx by_ Hbx Hby weights ws Ews xlim ylim f g S Hls Hsp (sel_filter kx ky _ _ _ _ EX EY HS) P R) as EO.
  eexists. split; [exact EO|]. split; [reflexivity|]. cbv zeta. cbn [info data rows]. split; [reflexivity|].
  set (rs := new_rows ls kx ky X0 Y0 dx dy mx my bx by_ ws g).
  assert (List.length rs = (my / by_ * (mx / bx))%nat) as LR by apply grid_length.
  assert (forall r, In r rs -> exists i j, (i < mx / bx)%nat /\ (j < my / by_)%nat /\ r = at_ (j * (mx / bx) + i) rs) as HIn.
  { intros r Hr. destruct (In_nth _ _ [] Hr) as (p & Hp & <-). rewrite LR in Hp. destruct (rm_split _ _ _ Hp) as (i & j & Hi & Hj & ->). exists i, j. auto. }
  pose proof (fun i j => new_record ls kx ky X0 Y0 dx dy mx my EX EY bx by_ weights ws HW HF g i j R) as NR. fold rs in NR. cbv zeta in NR.
  split.
  { split; [assumption|]. split.
    - intros r Hr. destruct (HIn r Hr) as (i & j & Hi & Hj & ->). apply (NR i j Hi Hj).
    - intros i j Hi Hj. destruct (NR i j Hi Hj) as (_ & A & B & _). split; assumption. }
  split.
  - intros r B Hr HB. destruct (HIn r Hr) as (i & j & Hi & Hj & ->). destruct (NR i j Hi Hj) as (_ & A1 & A2 & A3 & A4).
    rewrite A1, A2 in HB.
    assert (Permutation B (block_rows mx bx by_ i j g)) as PB.
    { apply (block_area ls kx ky X0 Y0 dx dy mx my EX EY Hdx Hdy Hmx Hmy bx by_ Hbx Hby g i j B S P R Hi Hj).
      replace (new_x X0 dx bx + dx * NQ bx * NQ i) with (new_x X0 dx bx + NQ i * (dx * NQ bx)) by ring.
      replace (new_y Y0 dy by_ + dy * NQ by_ * NQ j) with (new_y Y0 dy by_ + NQ j * (dy * NQ by_)) by ring. exact HB. }
    destruct (block_mean ls kx ky X0 Y0 dx dy mx my EX EY Hmx Hmy bx by_ Hbx Hby g i j R Hi Hj) as [M1 M2].
    assert (forall l, qsum (map (fld ls l) B) = qsum (map (fld ls l) (block_rows mx bx by_ i j g))) as QS by (intros l; apply qsum_perm, Permutation_map; assumption).
    split; [rewrite (Permutation_length PB); apply block_rows_length|].
    split; [rewrite A1, <- M1; unfold qmean; rewrite !map_length, QS, (Permutation_length PB); reflexivity|].
    split; [rewrite A2, <- M2; unfold qmean; rewrite !map_length, QS, (Permutation_length PB); reflexivity|].
    split.
    + intros l Hl N1 N2 NW. rewrite QS. apply A3; assumption.
    + intros l w Hlw Hp. apply (weighted_mean_perm _ _ (block_rows mx bx by_ i j g)); [symmetry; assumption|]. apply A4; [assumption|].
      intros r' Hr'. apply Hp. apply (Permutation_in _ (Permutation_sym PB)). assumption.
  - intros Ex Ey. pose proof (fun h => blocks_total mx my Hmx Hmy bx by_ Hbx Hby h g (proj1 R) Ex Ey) as BT.
    split.
    + intros l Hl N1 N2 NW. rewrite (qsum_perm _ _ (Permutation_map (fld ls l) P)), <- BT.
      rewrite (qsum_blocks (fld ls l) rs (mx / bx) (my / by_) LR). apply qsumn_ext. intros j Hj. apply qsumn_ext. intros i Hi.
      destruct (NR i j Hi Hj) as (_ & _ & _ & A3 & _). apply A3; assumption.
    + intros l w Hlw Hp. rewrite (qsum_perm _ _ (Permutation_map (fun r => fld ls l r * fld ls w r) P)), <- BT.
      rewrite (qsum_blocks (fun r => fld ls l r * fld ls w r) rs (mx / bx) (my / by_) LR). apply qsumn_ext. intros j Hj. apply qsumn_ext. intros i Hi.
      destruct (NR i j Hi Hj) as (_ & _ & _ & A3 & A4). destruct (proj2 HW l w Hlw) as (L1 & L2 & L3 & L4 & L5 & L6 & L7).
      rewrite (A3 w L2 L6 L7 L3).
      assert (forall r', In r' (block_rows mx bx by_ i j g) -> 0 <= fld ls w r') as Hp'.
      { intros r' Hr'. apply Hp. apply (Permutation_in _ (Permutation_sym P)). unfold block_rows in Hr'. apply in_grid in Hr'.
        destruct Hr' as (b & a & Hb & Ha & ->). destruct (block_lt ls X0 Y0 dx dy mx my Hmx Hmy bx by_ Hbx Hby g i j R Hi Hj b a Hb Ha) as [B1 B2].
        apply (reg_row ls kx ky X0 Y0 dx dy mx my EX EY g _ _ R B2 B1). }
      specialize (A4 l w Hlw Hp'). apply weighted_mean_map in A4. apply A4.
Qed.

Lemma super_result n g : (0 < nx)%nat -> (0 < ny)%nat -> (2 <= n)%nat -> f_shape (info f) = Some (Z.of_nat nx, Z.of_nat ny) ->
  Permutation (rows (data f)) g -> regular ls x0 y0 dx dy nx ny g ->
  exists out F, supersample (Some n) weights f = Ok out /\ labels (data out) = ls /\
    info out = mkFinfo (Some (Z.of_nat (nx * n), Z.of_nat (ny * n))) (Some (x0, y0)) (Some (dx / NQ n, dy / NQ n))
                       (Some (Z.of_nat (nx * n) * Z.of_nat (ny * n))%Z) /\
    regular ls x0 y0 (dx / NQ n) (dy / NQ n) (nx * n) (ny * n) (rows (data out)) /\
    regular ls x0 y0 (dx / NQ n) (dy / NQ n) (nx * n) (ny * n) F /\
    (forall i j l, (i < nx * n)%nat -> (j < ny * n)%nat -> In l ls -> l <> "X"%string -> l <> "Y"%string ->
       fld ls l (nth (j * (nx * n) + i) F []) = fld ls l (nth (j / n * nx + i / n) g [])) /\
    (forall r B, In r (rows (data out)) ->
       selects (in_area ls (fld ls "X" r) (fld ls "Y" r) (NQ (2 * n - 1) * (dx / NQ n)) (NQ (2 * n - 1) * (dy / NQ n))) F B ->
       (forall l, In l ls -> l <> "X"%string -> l <> "Y"%string -> ~ In l (map fst weights) -> fld ls l r = qmean (map (fld ls l) B)) /\
       (forall l w, In (l, w) weights -> (forall r', In r' B -> 0 <= fld ls w r') -> weighted_mean (map (fld ls l) B) (map (fld ls w) B) (fld ls l r))).
Proof.
  intros Hnx Hny Hn Hsh P R.
  destruct (index_of_some _ _ HX) as (kx & EX). destruct (index_of_some _ _ HY) as (ky & EY).
  destruct (label_indices_ok ls weights) as (ws & Ews & HF). { intros l w H. destruct (proj2 HW l w H) as (? & ? & _). auto. }
  pose proof (super_ok ls kx ky x0 y0 dx dy nx ny EX EY Hdx Hdy Hnx Hny n Hn weights ws Ews g R f Hls Hsp Hsh P) as EO.
  set (F := fine kx ky x0 y0 dx dy nx ny n g). exists (mkFlow (mkTable ls (super_rows kx ky x0 y0 dx dy nx ny n ws g)) (super_info x0 y0 dx dy nx ny n)), F.
  split; [exact EO|]. split; [reflexivity|]. split; [reflexivity|]. cbn [data rows].
  set (rs := super_rows kx ky x0 y0 dx dy nx ny n ws g).
  assert (List.length rs = (ny * n * (nx * n))%nat) as LR by apply grid_length.
  assert (forall r, In r rs -> exists i j, (i < nx * n)%nat /\ (j < ny * n)%nat /\ r = at_ (j * (nx * n) + i) rs) as HIn.
  { intros r Hr. destruct (In_nth _ _ [] Hr) as (p & Hp & <-). rewrite LR in Hp. destruct (rm_split _ _ _ Hp) as (i & j & Hi & Hj & ->). exists i, j. auto. }
  pose proof (fun J I => super_record ls kx ky x0 y0 dx dy nx ny EX EY Hnx Hny n Hn weights ws HW HF g R J I) as SR. fold rs in SR. cbv zeta in SR.
  split.
  { split; [assumption|]. split.
    - intros r Hr. destruct (HIn r Hr) as (i & j & Hi & Hj & ->). apply (SR j i Hj Hi).
    - intros i j Hi Hj. destruct (SR j i Hj Hi) as (_ & A & B & _). split; assumption. }
  split; [apply fine_regular; assumption|].
  split.
  { intros i j l Hi Hj Hl N1 N2. destruct (fine_row ls kx ky x0 y0 dx dy nx ny EX EY Hnx Hny n Hn g R j i Hj Hi) as (_ & _ & _ & _ & A). apply A; assumption. }
  intros r B Hr HB. destruct (HIn r Hr) as (i & j & Hi & Hj & ->). destruct (SR j i Hj Hi) as (_ & A1 & A2 & A3 & A4).
  rewrite A1, A2 in HB.
  assert (B = window (n - 1) (nx * n) (ny * n) i j F) as EB by (apply (window_area ls kx ky x0 y0 dx dy nx ny EX EY Hdx Hdy Hnx Hny n Hn g R j i B Hj Hi HB)).
  subst B. split; assumption.
Qed.
End Results.

Lemma qabs_0 : qabs 0 = 0.
Proof. apply qeq_true. vm_compute. reflexivity. Qed.
Lemma selects_dec {A} (p : A -> bool) (P : A -> Prop) l : (forall x, p x = true <-> P x) -> selects P l (filter p l).
Proof. intros H. apply selects_filter. intros x _. apply H. Qed.
Lemma area_selects ls x y w h l : exists B, selects (in_area ls x y w h) l B.
Proof.
  exists (filter (fun r => (qlt (qabs (fld ls "X" r - x)) (w / ZQ 2) && qlt (qabs (fld ls "Y" r - y)) (h / ZQ 2))%bool) l).
  apply selects_dec. intros r. unfold in_area. rewrite andb_true_iff, !qlt_true. reflexivity.
Qed.
Lemma nonneg_sum {A} (w : A -> Qc) B : (forall a, In a B -> 0 <= w a) -> 0 <= qsum (map w B).
Proof.
  induction B as [|a B IH]; simpl; intros Hw; [apply Qcle_refl|]. assert (0 <= w a) by (apply Hw; auto).
  assert (0 <= qsum (map w B)) by (apply IH; intros; apply Hw; auto). qlra'.
Qed.
Lemma weighted_between_nz {A} (v w : A -> Qc) B x lo hi : weighted_mean (map v B) (map w B) x -> qsum (map w B) <> 0 ->
  (forall a, In a B -> lo <= v a <= hi) -> (forall a, In a B -> 0 <= w a) -> lo <= x <= hi.
Proof.
  rewrite weighted_mean_map. intros [E Z] N Hv Hw.
  assert (0 < qsum (map w B)) as Hpos. { destruct (Qcle_lt_or_eq _ _ (nonneg_sum w B Hw)); [assumption|congruence]. }
  assert (lo * qsum (map w B) <= qsum (map (fun a => v a * w a) B) /\ qsum (map (fun a => v a * w a) B) <= hi * qsum (map w B)) as [L1 L2].
  { clear -Hv Hw. induction B as [|a B IH]; simpl.
    - replace (lo * 0) with 0 by ring. replace (hi * 0) with 0 by ring. split; apply Qcle_refl.
    - destruct (Hv a (or_introl eq_refl)). pose proof (Hw a (or_introl eq_refl)).
    destruct IH as [I1 I2]; [intros; apply Hv; simpl; auto|intros; apply Hw; simpl; auto|].
    assert (0 <= (v a - lo) * w a) by (apply qmult_nonneg; [qlra'|assumption]).
    assert (0 <= (hi - v a) * w a) by (apply qmult_nonneg; [qlra'|assumption]).
    split.
    + replace (lo * (w a + qsum (map w B))) with (lo * qsum (map w B) + (v a * w a - (v a - lo) * w a)) by ring.
      generalize dependent ((v a - lo) * w a). generalize dependent (v a * w a). generalize dependent (lo * qsum (map w B)). intros. qlra'.
    + replace (hi * (w a + qsum (map w B))) with (hi * qsum (map w B) + (v a * w a + (hi - v a) * w a)) by ring.
      generalize dependent ((hi - v a) * w a). generalize dependent (v a * w a). generalize dependent (hi * qsum (map w B)). intros. qlra'. }
  rewrite <- E in L1, L2. split; (eapply Qcmult_lt_0_le_reg_r; [exact Hpos|assumption]).
Qed.
Lemma weighted_between {A} (v w : A -> Qc) B x lo hi : weighted_mean (map v B) (map w B) x ->
  (forall a, In a B -> lo <= v a <= hi) -> (forall a, In a B -> 0 <= w a) -> x = 0 \/ (lo <= x <= hi).
Proof.
  intros E Hv Hw. destruct (qeq_spec (qsum (map w B)) 0) as [E0|N]; [left; apply weighted_mean_map in E; apply E; assumption|right].
  eapply weighted_between_nz; eassumption.
Qed.

Section Range.
Variables (ls : list string) (x0 y0 dx dy : Qc) (nx ny : nat) (weights : list (string * string)) (f : flow).
Hypothesis HX : In "X"%string ls.
Hypothesis HY : In "Y"%string ls.
Hypothesis Hdx : 0 < dx.
Hypothesis Hdy : 0 < dy.
Hypothesis Hls : labels (data f) = ls.
Hypothesis Hsp : f_spacing (info f) = Some (dx, dy).
Hypothesis HG : gridded ls x0 y0 dx dy nx ny (rows (data f)).
Hypothesis HW : names_ok ls weights.
Hypothesis Hnx : (0 < nx)%nat.
Hypothesis Hny : (0 < ny)%nat.
Hypothesis Hsh : f_shape (info f) = Some (Z.of_nat nx, Z.of_nat ny).
Lemma super_range n out r : (2 <= n)%nat -> supersample (Some n) weights f = Ok out -> In r (rows (data out)) ->
  (forall l lo hi, In l ls -> l <> "X"%string -> l <> "Y"%string -> ~ In l (map fst weights) ->
     (forall c, In c (rows (data f)) -> lo <= fld ls l c <= hi) -> lo <= fld ls l r <= hi) /\
  (forall l w lo hi, In (l, w) weights -> (forall c, In c (rows (data f)) -> 0 <= fld ls w c) ->
     (forall c, In c (rows (data f)) -> lo <= fld ls l c <= hi) -> fld ls l r = 0 \/ (lo <= fld ls l r <= hi)) /\
  (forall l w, In (l, w) weights -> (forall c, In c (rows (data f)) -> 0 < fld ls w c) -> forall lo hi,
     (forall c, In c (rows (data f)) -> lo <= fld ls l c <= hi) -> lo <= fld ls l r <= hi).
Proof.
  intros Hn EO Hr. destruct HG as (g & P & R).
  destruct (super_result ls x0 y0 dx dy nx ny weights f HX HY Hdx Hdy Hls Hsp HW n g Hnx Hny Hn Hsh P R) as (o & F & E & L & I & RO & RF & V & W).
  rewrite EO in E. injection E as <-.
  destruct (area_selects ls (fld ls "X" r) (fld ls "Y" r) (NQ (2 * n - 1) * (dx / NQ n)) (NQ (2 * n - 1) * (dy / NQ n)) F) as (B & HB).
  destruct (W r B Hr HB) as [W1 W2].
  assert (forall r', In r' B -> exists c, In c (rows (data f)) /\ forall l, In l ls -> l <> "X"%string -> l <> "Y"%string -> fld ls l r' = fld ls l c) as HC.
  { intros r' Hr'. apply (selects_in _ _ _ HB) in Hr'. destruct Hr' as [Hr' _].
    destruct (reg_in ls x0 y0 (dx / NQ n) (dy / NQ n) (nx * n) (ny * n) F r' RF Hr') as (i & j & Hi & Hj & ->).
    exists (nth (j / n * nx + i / n) g []). split.
    - apply (Permutation_in _ (Permutation_sym P)). apply nth_In. rewrite (proj1 R). apply rm_lt; apply Nat.div_lt_upper_bound; lia.
    - intros l H1 H2 H3. apply V; assumption. }
  assert (B <> []) as HN.
  { destruct (reg_in ls x0 y0 (dx / NQ n) (dy / NQ n) (nx * n) (ny * n) _ r RO Hr) as (i & j & Hi & Hj & Er).
    destruct RO as (_ & _ & RO). destruct (RO i j Hi Hj) as [EX EY]. unfold at_ in Er. rewrite <- Er in EX, EY.
    destruct RF as (LF & _ & RF). destruct (RF i j Hi Hj) as [FX FY].
    intros C. assert (In (nth (j * (nx * n) + i) F []) B) as HI; [|rewrite C in HI; destruct HI].
    apply (selects_in _ _ _ HB). split; [apply nth_In; rewrite LF; apply rm_lt; assumption|].
    assert (forall d, 0 < d -> 0 < NQ (2 * n - 1) * (d / NQ n) / ZQ 2) as Hpos.
    { intros d Hd. unfold Qcdiv. repeat apply qmult_pos; try assumption; try apply qinv_pos; try (apply NQ_pos; lia). apply qlt_true. vm_compute. reflexivity. }
    split.
    - rewrite FX, EX. replace (x0 + NQ i * (dx / NQ n) - (x0 + NQ i * (dx / NQ n))) with 0 by ring. rewrite qabs_0. auto.
    - rewrite FY, EY. replace (y0 + NQ j * (dy / NQ n) - (y0 + NQ j * (dy / NQ n))) with 0 by ring. rewrite qabs_0. auto. }
  split; [|split].
  - intros l lo hi H1 H2 H3 H4 H5. rewrite W1 by assumption. apply mean_bounds; [assumption|]. intros b Hb. destruct (HC b Hb) as (c & Hc & Ec). rewrite Ec by assumption. auto.
  - intros l w lo hi Hlw H1 H2. destruct (proj2 HW l w Hlw) as (A1 & A2 & A3 & A4 & A5 & A6 & A7).
    assert (forall r', In r' B -> 0 <= fld ls w r') as HP. { intros b Hb. destruct (HC b Hb) as (c & Hc & Ec). rewrite Ec by assumption. auto. }
    apply (weighted_between (fld ls l) (fld ls w) B); [apply W2; assumption| |assumption].
    intros b Hb. destruct (HC b Hb) as (c & Hc & Ec). rewrite Ec by assumption. auto.
  - intros l w Hlw H1 lo hi H2. destruct (proj2 HW l w Hlw) as (A1 & A2 & A3 & A4 & A5 & A6 & A7).
    assert (forall r', In r' B -> 0 < fld ls w r') as HP. { intros b Hb. destruct (HC b Hb) as (c & Hc & Ec). rewrite Ec by assumption. auto. }
    assert (forall r', In r' B -> lo <= fld ls l r' <= hi) as HV. { intros b Hb. destruct (HC b Hb) as (c & Hc & Ec). rewrite Ec by assumption. auto. }
    assert (weighted_mean (map (fld ls l) B) (map (fld ls w) B) (fld ls l r)) as WM by (apply W2; [assumption|intros; apply Qclt_le_weak; auto]).
    apply (weighted_between_nz (fld ls l) (fld ls w) B); [assumption| |assumption|intros; apply Qclt_le_weak; auto].
    apply qpos_nz. destruct B as [|b B]; [congruence|]. simpl. assert (0 < fld ls w b) by (apply HP; simpl; auto).
    assert (0 <= qsum (map (fld ls w) B)) by (apply nonneg_sum; intros; apply Qclt_le_weak; apply HP; simpl; auto).
    clear -H H0. qlra'.
Qed.
End Range.
