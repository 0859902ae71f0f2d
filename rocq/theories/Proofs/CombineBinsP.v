From Coq Require Import Permutation.
From Verif.Base Require Import QcX Res Np Sums ListX.
From Verif.Model Require Import Bins SimpleAverage.
From Verif.Spec Require Import MapSpec.
From Verif.Proofs Require Import SimpleAverageP.

Local Open Scope nat_scope.

(** *** Blocks as sets of cells *)
Lemma filter_all {A} (f : A -> bool) l : (forall x, In x l -> f x = true) -> filter f l = l.
Proof. induction l as [|x l IH]; simpl; intros H; [reflexivity|]. rewrite (H x) by auto. rewrite IH by auto. reflexivity. Qed.
Lemma filter_none {A} (f : A -> bool) l : (forall x, In x l -> f x = false) -> filter f l = [].
Proof. induction l as [|x l IH]; simpl; intros H; [reflexivity|]. rewrite (H x) by auto. apply IH. auto. Qed.
Lemma filter_prod {A B} (f : A -> bool) (g : B -> bool) l m :
  filter (fun c => f (fst c) && g (snd c))%bool (list_prod l m) = list_prod (filter f l) (filter g m).
Proof.
  induction l as [|x l IH]; [reflexivity|]. cbn [list_prod filter]. rewrite filter_app, IH.
  assert (E : filter (fun c : A * B => f (fst c) && g (snd c))%bool (map (fun y => (x, y)) m) =
              if f x then map (fun y => (x, y)) (filter g m) else []).
  { clear. induction m as [|y m IH]; cbn [map filter fst snd]; [destruct (f x); reflexivity|].
    rewrite IH. destruct (f x), (g y); reflexivity. }
  rewrite E. destruct (f x); reflexivity.
Qed.
Lemma div_range_filter n i s : n <> 0 -> n * i + n <= s ->
  filter (fun p => Nat.eqb (p / n) i) (seq 0 s) = seq (n * i) n.
Proof.
  intros Hn H. replace s with (n * i + (n + (s - (n * i + n)))) by lia.
  rewrite !seq_app, !filter_app. rewrite filter_none, filter_all, filter_none.
  - rewrite app_nil_r. reflexivity.
  - intros x Hx. apply in_seq in Hx. apply Nat.eqb_neq. intros E.
    pose proof (Nat.div_mod x n Hn). pose proof (Nat.mod_upper_bound x n Hn). rewrite E in *. nia.
  - intros x Hx. apply in_seq in Hx. apply Nat.eqb_eq. symmetry.
    apply (Nat.div_unique x n i (x - n * i)); lia.
  - intros x Hx. apply in_seq in Hx. apply Nat.eqb_neq. intros E.
    pose proof (Nat.div_mod x n Hn). pose proof (Nat.mod_upper_bound x n Hn). rewrite E in *. nia.
Qed.
Lemma list_prod_grid {A} (f : nat * nat -> A) a n b m :
  map f (list_prod (seq a n) (seq b m)) = grid n m (fun i j => f (a + i, b + j)).
Proof.
  revert a; induction n as [|n IH]; intros a; [reflexivity|].
  rewrite grid_S. cbn [seq list_prod]. rewrite map_app, IH. f_equal.
  - rewrite map_map. clear. rewrite Nat.add_0_r. revert b.
    assert (forall k b, map (fun x => f (a, x)) (seq (b + k) m) = map (fun j => f (a, b + j)) (seq k m)) as H.
    { induction m as [|m IH]; intros k b; [reflexivity|]. cbn [seq map]. f_equal.
      rewrite <- (IH (S k) b). f_equal. f_equal. lia. }
    intros b. specialize (H 0 b). rewrite Nat.add_0_r in H. exact H.
  - apply grid_ext. intros i j _ _. f_equal. f_equal. lia.
Qed.

Lemma block_bound s n i : n <> 0 -> i < s / n -> n * i + n <= s.
Proof. intros Hn H. pose proof (Nat.div_mod s n Hn). nia. Qed.

Lemma block_is_cells sx sy nx ny i j data : nx <> 0 -> ny <> 0 ->
  length data = sx * sy -> i < sx / nx -> j < sy / ny ->
  map (cell sy data) (block_cells sx sy nx ny i j) = map Some (block sy nx ny i j data).
Proof.
  intros Hx Hy L Hi Hj. pose proof (block_bound _ _ _ Hx Hi) as Bi. pose proof (block_bound _ _ _ Hy Hj) as Bj.
  unfold block_cells. rewrite (filter_prod (fun p => Nat.eqb (p / nx) i) (fun q => Nat.eqb (q / ny) j)).
  rewrite !div_range_filter by auto. rewrite list_prod_grid. unfold block. rewrite grid_map.
  apply grid_ext. intros a b Ha Hb. unfold cell. cbn [fst snd]. apply nth_error_nth'. rewrite L. nia.
Qed.

Lemma block_length sy nx ny i j data : length (block sy nx ny i j data) = nx * ny.
Proof. apply grid_length. Qed.

Lemma block_in sx sy nx ny i j data b : nx <> 0 -> ny <> 0 -> length data = sx * sy -> i < sx / nx -> j < sy / ny ->
  In b (block sy nx ny i j data) -> In b data.
Proof.
  intros Hx Hy L Hi Hj H. unfold block in H. apply in_grid in H. destruct H as (a & c & Ha & Hc & ->).
  pose proof (block_bound _ _ _ Hx Hi) as Bi. pose proof (block_bound _ _ _ Hy Hj) as Bj.
  apply nth_In. rewrite L. nia.
Qed.

Local Open Scope Qc_scope.

(** *** The block average *)
Lemma combine_map_map {A B C} (f : A -> B) (g : A -> C) l : combine (map f l) (map g l) = map (fun a => (f a, g a)) l.
Proof. induction l; simpl; congruence. Qed.
Lemma block_avg_form f w blk :
  block_avg f w blk = if qeq (qsum (map w blk)) 0 then 0 else qsum (map (fun b => f b * w b) blk) / qsum (map w blk).
Proof.
  unfold block_avg, np_average. destruct (qeq (qsum (map w blk)) 0); [reflexivity|].
  rewrite combine_map_map, map_map. reflexivity.
Qed.
Lemma block_avg_mult f w blk : (forall b, In b blk -> 0 <= w b) ->
  block_avg f w blk * qsum (map w blk) = qsum (map (fun b => f b * w b) blk).
Proof.
  intros H. rewrite block_avg_form. destruct (qeq_spec (qsum (map w blk)) 0) as [E|E].
  - destruct (weighted_avg_zero f w blk H E) as [_ ->]. ring.
  - field. exact E.
Qed.
Lemma block_avg_bounds f w blk lo hi : (forall b, In b blk -> 0 <= w b) -> 0 < qsum (map w blk) ->
  (forall b, In b blk -> w b <> 0 -> lo <= f b <= hi) -> lo <= block_avg f w blk <= hi.
Proof.
  intros Hw Hp Hf. destruct (wsum_bounds' f w blk lo hi Hw Hf) as [B1 B2]. rewrite block_avg_form.
  destruct (qeq_spec (qsum (map w blk)) 0) as [E|E]; [rewrite E in Hp; exfalso; revert Hp; apply Qcle_not_lt, Qcle_refl|].
  split; [apply qle_div_iff|apply qdiv_le_iff]; auto.
Qed.

(** *** Result of [combine_bins] *)
Section Combine.
Variables (data : list bin) (info : ginfo) (nx ny : nat) (data' : list bin) (info' : ginfo).
Hypothesis H : combine_bins data info nx ny = Ok (data', info').
Let sx := fst (shape info).
Let sy := snd (shape info).

Lemma combine_guard : nx <> 0%nat /\ ny <> 0%nat /\ length data = (sx * sy)%nat.
Proof.
  revert H. unfold combine_bins. destruct (Nat.eqb nx 0) eqn:E1, (Nat.eqb ny 0) eqn:E2; simpl; try discriminate.
  apply Nat.eqb_neq in E1, E2. fold sx sy. destruct (Nat.eqb (length data) (sx * sy)) eqn:E3; simpl; try discriminate.
  apply Nat.eqb_eq in E3. auto.
Qed.

Definition new_bin (i j : nat) : bin :=
  let half := Q2Qc (1 # 2) in
  let blk := block sy nx ny i j data in
  mkBin (fst (origin info) + half * fst (spacing info) * (NQ nx - 1) + NQ i * (fst (spacing info) * NQ nx))
        (snd (origin info) + half * snd (spacing info) * (NQ ny - 1) + NQ j * (snd (spacing info) * NQ ny))
        (block_sum bN blk) (block_avg bT bN blk) (block_sum bM blk) (block_avg bU bM blk) (block_avg bV bM blk).
Definition new_info : ginfo :=
  let half := Q2Qc (1 # 2) in
  mkInfo (sx / nx, sy / ny)%nat (fst (spacing info) * NQ nx, snd (spacing info) * NQ ny)
    (fst (origin info) + half * fst (spacing info) * (NQ nx - 1),
     snd (origin info) + half * snd (spacing info) * (NQ ny - 1)) ((sx / nx) * (sy / ny))%nat.

Lemma combine_form : nx <> 0%nat -> ny <> 0%nat -> length data = (sx * sy)%nat ->
  combine_bins data info nx ny = Ok (grid (sx / nx) (sy / ny) new_bin, new_info).
Proof.
  intros Hx Hy L. unfold combine_bins.
  replace (Nat.eqb nx 0) with false by (symmetry; apply Nat.eqb_neq; auto).
  replace (Nat.eqb ny 0) with false by (symmetry; apply Nat.eqb_neq; auto). simpl orb.
  fold sx sy. rewrite L, Nat.eqb_refl. simpl negb. cbv iota. cbn [fst snd].
  f_equal. f_equal. apply grid_ext. intros i j Hi Hj. unfold new_bin.
  assert (LS : forall x0 dx n k, (k < n)%nat -> nth k (linspace x0 (x0 + dx * (NQ n - 1)) n) 0 = x0 + NQ k * dx).
  { intros x0 dx n k Hk. rewrite <- (linspace_step x0 dx n k 0 Hk). do 3 f_equal. rewrite NQ_sub by lia. reflexivity. }
  rewrite !LS by auto. reflexivity.
Qed.
Lemma combine_data : data' = grid (sx / nx) (sy / ny) new_bin /\ info' = new_info.
Proof.
  destruct combine_guard as (Hx & Hy & L). rewrite combine_form in H by auto. injection H as <- <-. auto.
Qed.
End Combine.

Lemma grid_nth_error_total {A} n m (f : nat -> nat -> A) k x : nth_error (grid n m f) k = Some x ->
  exists i j, (i < n)%nat /\ (j < m)%nat /\ k = (i * m + j)%nat /\ x = f i j.
Proof.
  intros H. assert (Hk : (k < n * m)%nat) by (rewrite <- (grid_length n m f); apply nth_error_Some; congruence).
  assert (Hm : m <> 0%nat) by nia.
  pose proof (Nat.div_mod k m Hm) as D. pose proof (Nat.mod_upper_bound k m Hm) as M.
  assert (Hi : (k / m < n)%nat) by (apply Nat.div_lt_upper_bound; nia).
  exists (k / m)%nat, (k mod m)%nat. split; auto. split; auto. split; [lia|].
  replace k with (k / m * m + k mod m)%nat in H by lia. rewrite grid_nth_error in H by auto. congruence.
Qed.

(** C12 for one block. *)
Lemma combine_block data info nx ny data' info' i j b :
  combine_bins data info nx ny = Ok (data', info') -> weights_nonneg data ->
  (i < fst (shape info'))%nat -> (j < snd (shape info'))%nat ->
  cell (snd (shape info')) data' (i, j) = Some b ->
  exists blk,
    map (cell (snd (shape info)) data) (block_cells (fst (shape info)) (snd (shape info)) nx ny i j) = map Some blk /\
    length blk = (nx * ny)%nat /\
    bM b = total bM blk /\ bN b = total bN blk /\
    bM b * bU b = total (fun c => bM c * bU c) blk /\
    bM b * bV b = total (fun c => bM c * bV c) blk /\
    bN b * bT b = total (fun c => bN c * bT c) blk /\
    (bM b = 0 -> bU b = 0 /\ bV b = 0) /\ (bN b = 0 -> bT b = 0).
Proof.
  intros H Hw Hi Hj Hb. destruct (combine_guard _ _ _ _ _ _ H) as (Hx & Hy & L).
  destruct (combine_data _ _ _ _ _ _ H) as [-> ->]. cbn [new_info shape fst snd] in *.
  unfold cell in Hb. cbn [fst snd] in Hb. rewrite grid_nth_error in Hb by auto. injection Hb as <-.
  set (blk := block (snd (shape info)) nx ny i j data). exists blk.
  assert (W : forall c, In c blk -> 0 <= bM c /\ 0 <= bN c).
  { intros c Hc. apply Hw. unfold blk in Hc. eapply block_in in Hc; eauto. }
  split; [apply block_is_cells; auto|]. split; [apply block_length|].
  unfold new_bin. fold blk. cbn [bM bN bU bV bT]. unfold block_sum, total.
  assert (CM : forall f w : bin -> Qc, qsum (map (fun c => w c * f c) blk) = qsum (map (fun c => f c * w c) blk)).
  { intros. apply qsum_map_ext. intros. ring. }
  split; [reflexivity|]. split; [reflexivity|].
  split; [rewrite CM, <- (block_avg_mult bU bM blk) by (intros; apply W; auto); ring|].
  split; [rewrite CM, <- (block_avg_mult bV bM blk) by (intros; apply W; auto); ring|].
  split; [rewrite CM, <- (block_avg_mult bT bN blk) by (intros; apply W; auto); ring|].
  split; [intros E|intros E]; rewrite !block_avg_form, !E, !qeq_refl; auto.
Qed.

Lemma combine_bounds data info nx ny data' info' i j b lo hi :
  combine_bins data info nx ny = Ok (data', info') -> weights_nonneg data ->
  (i < fst (shape info'))%nat -> (j < snd (shape info'))%nat ->
  cell (snd (shape info')) data' (i, j) = Some b ->
  (bM b <> 0 -> (forall c, In c data -> bM c <> 0 -> lo <= bU c <= hi) -> lo <= bU b <= hi) /\
  (bM b <> 0 -> (forall c, In c data -> bM c <> 0 -> lo <= bV c <= hi) -> lo <= bV b <= hi) /\
  (bN b <> 0 -> (forall c, In c data -> bN c <> 0 -> lo <= bT c <= hi) -> lo <= bT b <= hi).
Proof.
  intros H Hw Hi Hj Hb. destruct (combine_guard _ _ _ _ _ _ H) as (Hx & Hy & L).
  destruct (combine_data _ _ _ _ _ _ H) as [-> ->]. cbn [new_info shape fst snd] in *.
  unfold cell in Hb. cbn [fst snd] in Hb. rewrite grid_nth_error in Hb by auto. injection Hb as <-.
  set (blk := block (snd (shape info)) nx ny i j data).
  assert (IN : forall c, In c blk -> In c data) by (intros c Hc; unfold blk in Hc; eapply block_in in Hc; eauto).
  assert (W : forall c, In c blk -> 0 <= bM c /\ 0 <= bN c) by (intros c Hc; apply Hw; auto).
  unfold new_bin. fold blk. cbn [bM bN bU bV bT]. unfold block_sum.
  assert (P : forall w : bin -> Qc, (forall c, In c blk -> 0 <= w c) -> qsum (map w blk) <> 0 -> 0 < qsum (map w blk)).
  { intros w Hpos Hne. destruct (qc_lt_trich 0 (qsum (map w blk))) as [K|[K|K]]; auto; [congruence|].
    exfalso. apply (Qcle_not_lt 0 (qsum (map w blk))); auto. apply qsum_nonneg.
    intros x Hin. apply in_map_iff in Hin. destruct Hin as (c & <- & Hc). auto. }
  split; [|split]; intros E Hf; apply block_avg_bounds; auto; try (apply P; auto); intros c Hc; apply W; auto.
Qed.

(** Totals. *)
Lemma total_grid_nth (f : bin -> Qc) data n m : length data = (n * m)%nat ->
  total f data = qsumn n (fun i => qsumn m (fun j => f (nth (i * m + j) data bin0))).
Proof. intros L. unfold total. rewrite (grid_of_list data n m bin0 L) at 1. apply grid_sum. Qed.

Lemma sum_blocks (g : nat -> nat -> Qc) nx ny mx my :
  qsumn mx (fun i => qsumn my (fun j => qsumn nx (fun a => qsumn ny (fun b => g (nx * i + a)%nat (ny * j + b)%nat)))) =
  qsumn (mx * nx) (fun p => qsumn (my * ny) (fun q => g p q)).
Proof.
  rewrite (qsumn_mul mx nx). apply qsumn_ext. intros i _.
  rewrite qsumn_swap. apply qsumn_ext. intros a _. rewrite (qsumn_mul my ny).
  apply qsumn_ext. intros j _. apply qsumn_ext. intros b _. f_equal; lia.
Qed.

Lemma combine_totals data info nx ny data' info' :
  combine_bins data info nx ny = Ok (data', info') -> weights_nonneg data ->
  Nat.divide nx (fst (shape info)) -> Nat.divide ny (snd (shape info)) ->
  total bM data' = total bM data /\ total bN data' = total bN data /\
  total (fun c => bM c * bU c) data' = total (fun c => bM c * bU c) data /\
  total (fun c => bM c * bV c) data' = total (fun c => bM c * bV c) data /\
  total (fun c => bN c * bT c) data' = total (fun c => bN c * bT c) data.
Proof.
  intros H Hw [mx Dx] [my Dy]. destruct (combine_guard _ _ _ _ _ _ H) as (Hx & Hy & L).
  pose proof (combine_block data info nx ny data' info') as CB.
  destruct (combine_data _ _ _ _ _ _ H) as [E1 E2].
  assert (S1 : (fst (shape info) / nx = mx)%nat) by (rewrite Dx; apply Nat.div_mul; auto).
  assert (S2 : (snd (shape info) / ny = my)%nat) by (rewrite Dy; apply Nat.div_mul; auto).
  assert (K : forall f : bin -> Qc,
     (forall i j, (i < mx)%nat -> (j < my)%nat ->
        f (new_bin data info nx ny i j) = total f (block (snd (shape info)) nx ny i j data)) ->
     total f data' = total f data).
  { intros f Hf. rewrite E1. unfold total at 1. rewrite grid_sum, S1, S2.
    rewrite (qsumn_ext mx _ (fun i => qsumn my (fun j => qsumn nx (fun a => qsumn ny (fun b =>
        f (nth ((nx * i + a) * snd (shape info) + (ny * j + b)) data bin0)))))).
    2:{ intros i Hi. apply qsumn_ext. intros j Hj. rewrite Hf by auto. unfold total, block. rewrite grid_sum. reflexivity. }
    rewrite (sum_blocks (fun p q => f (nth (p * snd (shape info) + q) data bin0))).
    rewrite <- Dx, <- Dy. symmetry. apply total_grid_nth. exact L. }
  assert (W : forall i j c, (i < mx)%nat -> (j < my)%nat -> In c (block (snd (shape info)) nx ny i j data) -> 0 <= bM c /\ 0 <= bN c).
  { intros i j c Hi Hj Hc. apply Hw. eapply block_in in Hc; eauto; lia. }
  assert (CM : forall (f w : bin -> Qc) blk, qsum (map (fun c => w c * f c) blk) = qsum (map (fun c => f c * w c) blk)).
  { intros. apply qsum_map_ext. intros. ring. }
  split; [apply K; reflexivity|]. split; [apply K; reflexivity|].
  split; [|split]; apply K; intros i j Hi Hj; cbn [new_bin bM bN bU bV bT]; unfold block_sum, total; rewrite CM;
  rewrite <- block_avg_mult by (intros c Hc; apply (W i j c Hi Hj Hc)); ring.
Qed.

(** C13: geometry. *)
Lemma combine_geometry data info nx ny data' info' :
  combine_bins data info nx ny = Ok (data', info') ->
  shape info' = (fst (shape info) / nx, snd (shape info) / ny)%nat /\
  spacing info' = (NQ nx * fst (spacing info), NQ ny * snd (spacing info)) /\
  num_bins info' = length data' /\ on_grid info' data'.
Proof.
  intros H. destruct (combine_guard _ _ _ _ _ _ H) as (Hx & Hy & L).
  destruct (combine_data _ _ _ _ _ _ H) as [-> ->]. cbn [new_info shape spacing num_bins].
  split; [reflexivity|]. split; [f_equal; ring|]. split; [symmetry; apply grid_length|].
  split; cbn [new_info shape fst snd origin spacing]; [apply grid_length|].
  intros p q b Hp Hq Hb. unfold cell in Hb. cbn [fst snd] in Hb. rewrite grid_nth_error in Hb by auto. injection Hb as <-.
  cbn [new_bin bX bY]. split; ring.
Qed.

Lemma qsumn_NQ n : qsumn n NQ * (1 + 1) = NQ n * (NQ n - 1).
Proof. induction n as [|n IH]; [reflexivity|]. rewrite qsumn_S, NQ_S, Qcmult_plus_distr_l, IH. ring. Qed.

Lemma combine_centres data info nx ny data' info' i j b blk :
  combine_bins data info nx ny = Ok (data', info') -> on_grid info data ->
  (i < fst (shape info'))%nat -> (j < snd (shape info'))%nat ->
  cell (snd (shape info')) data' (i, j) = Some b ->
  map (cell (snd (shape info)) data) (block_cells (fst (shape info)) (snd (shape info)) nx ny i j) = map Some blk ->
  bX b * NQ (length blk) = total bX blk /\ bY b * NQ (length blk) = total bY blk.
Proof.
  intros H [L G] Hi Hj Hb Hblk. destruct (combine_guard _ _ _ _ _ _ H) as (Hx & Hy & _).
  destruct (combine_data _ _ _ _ _ _ H) as [-> ->]. cbn [new_info shape fst snd] in *.
  unfold cell in Hb. cbn [fst snd] in Hb. rewrite grid_nth_error in Hb by auto. injection Hb as <-.
  rewrite block_is_cells in Hblk by auto.
  assert (blk = block (snd (shape info)) nx ny i j data) as ->.
  { revert Hblk. generalize (block (snd (shape info)) nx ny i j data). clear. intros l. revert blk.
    induction l as [|x l IH]; intros [|y m]; simpl; intros E; try discriminate; auto. injection E as -> E. f_equal. auto. }
  rewrite block_length. unfold total, block. rewrite !grid_sum.
  pose proof (block_bound _ _ _ Hx Hi) as Bi. pose proof (block_bound _ _ _ Hy Hj) as Bj.
  assert (GG : forall a c, (a < nx)%nat -> (c < ny)%nat ->
     bX (nth ((nx * i + a) * snd (shape info) + (ny * j + c)) data bin0) = fst (origin info) + NQ (nx * i + a) * fst (spacing info) /\
     bY (nth ((nx * i + a) * snd (shape info) + (ny * j + c)) data bin0) = snd (origin info) + NQ (ny * j + c) * snd (spacing info)).
  { intros a c Ha Hc. apply G; [lia|lia|]. unfold cell. cbn [fst snd]. apply nth_error_nth'. rewrite L. nia. }
  cbn [new_bin bX bY]. rewrite NQ_mul. set (half := Q2Qc (1 # 2)).
  assert (Hh : half * (1 + 1) = 1) by (unfold half; apply Qc_is_canon; reflexivity).
  assert (HS : forall n, qsumn n NQ = half * (NQ n * (NQ n - 1))).
  { intros n. rewrite <- qsumn_NQ. replace (qsumn n NQ) with (1 * qsumn n NQ) by ring. rewrite <- Hh at 1. ring. }
  split.
  - rewrite (qsumn_ext nx _ (fun a => (fst (origin info) + NQ (nx * i) * fst (spacing info)) * NQ ny + NQ a * (fst (spacing info) * NQ ny))).
    2:{ intros a Ha. rewrite (qsumn_ext ny _ (fun _ => fst (origin info) + NQ (nx * i + a) * fst (spacing info))).
        - rewrite qsumn_const, NQ_add. ring.
        - intros c Hc. apply GG; auto. }
    rewrite qsumn_plus, qsumn_const, qsumn_scale_r, HS, NQ_mul. ring.
  - rewrite (qsumn_ext nx _ (fun _ => qsumn ny (fun c => (snd (origin info) + NQ (ny * j) * snd (spacing info)) + NQ c * snd (spacing info)))).
    2:{ intros a Ha. apply qsumn_ext. intros c Hc. rewrite (proj2 (GG a c Ha Hc)), NQ_add. ring. }
    rewrite qsumn_const, qsumn_plus, qsumn_const, qsumn_scale_r, HS, NQ_mul. ring.
Qed.

Lemma combine_one data info : on_grid info data -> num_bins info = length data ->
  (forall b, In b data -> (bM b = 0 -> bU b = 0 /\ bV b = 0) /\ (bN b = 0 -> bT b = 0)) ->
  combine_bins data info 1 1 = Ok (data, info).
Proof.
  intros [L G] Hn Hz. rewrite combine_form by (auto; lia). f_equal.
  rewrite !Nat.div_1_r. f_equal.
  - rewrite (grid_of_list data (fst (shape info)) (snd (shape info)) bin0 L) at 2.
    apply grid_ext. intros i j Hi Hj.
    assert (Hlt : (i * snd (shape info) + j < length data)%nat) by (rewrite L; nia).
    set (b := nth (i * snd (shape info) + j) data bin0).
    destruct (G i j b Hi Hj) as [GX GY]. { unfold cell. apply nth_error_nth'. exact Hlt. }
    destruct (Hz b) as [Z1 Z2]. { apply nth_In. exact Hlt. }
    unfold new_bin, block. cbn [grid seq flat_map map app].
    replace (1 * i + 0)%nat with i by lia. replace (1 * j + 0)%nat with j by lia. fold b.
    unfold block_sum. rewrite !block_avg_form. cbn [map qsum fold_right].
    rewrite !NQ_1. apply bin_ext; cbn [bX bY bN bT bM bU bV].
    + rewrite GX. ring. + rewrite GY. ring. + ring.
    + destruct (qeq_spec (bN b + 0) 0) as [E|E].
      * symmetry. apply Z2. rewrite <- E. ring.
      * field. intros K. apply E. rewrite K. ring.
    + ring.
    + destruct (qeq_spec (bM b + 0) 0) as [E|E].
      * symmetry. apply Z1. rewrite <- E. ring.
      * field. intros K. apply E. rewrite K. ring.
    + destruct (qeq_spec (bM b + 0) 0) as [E|E].
      * symmetry. apply Z1. rewrite <- E. ring.
      * field. intros K. apply E. rewrite K. ring.
  - unfold new_info. destruct info as [[s1 s2] [d1 d2] [o1 o2] nb]. cbn [shape spacing origin num_bins fst snd] in *.
    rewrite !Nat.div_1_r, !NQ_1. f_equal; [f_equal; ring|f_equal; ring|congruence].
Qed.

(** Composition of two combinations. *)
Lemma combine_compose data info a b c d data1 info1 :
  weights_nonneg data -> c <> 0%nat -> d <> 0%nat ->
  combine_bins data info a b = Ok (data1, info1) ->
  combine_bins data1 info1 c d = combine_bins data info (a * c) (b * d).
Proof.
  intros Hw Hc Hd H. destruct (combine_guard _ _ _ _ _ _ H) as (Ha & Hb & L).
  destruct (combine_data _ _ _ _ _ _ H) as [-> ->].
  rewrite combine_form; [|auto|auto|cbn [new_info shape fst snd]; apply grid_length].
  rewrite (combine_form data info (a * c) (b * d)) by (auto; nia).
  set (data1 := grid (fst (shape info) / a) (snd (shape info) / b) (new_bin data info a b)).
  cbn [new_info shape fst snd]. rewrite !Nat.div_div by auto. f_equal. f_equal.
  - apply grid_ext. intros i j Hi Hj.
    assert (Hi1 : (c * i + c <= fst (shape info) / a)%nat) by (apply block_bound; auto; rewrite Nat.div_div by auto; exact Hi).
    assert (Hj1 : (d * j + d <= snd (shape info) / b)%nat) by (apply block_bound; auto; rewrite Nat.div_div by auto; exact Hj).
    (* sums over the outer block of inner results *)
    assert (S : forall f g : bin -> Qc,
       (forall p q, (p < fst (shape info) / a)%nat -> (q < snd (shape info) / b)%nat ->
           g (new_bin data info a b p q) = qsum (map f (block (snd (shape info)) a b p q data))) ->
       qsum (map g (block (snd (shape (new_info info a b))) c d i j data1)) =
       qsum (map f (block (snd (shape info)) (a * c) (b * d) i j data))).
    { intros f g Hg. unfold block at 1. rewrite grid_sum. cbn [new_info shape snd].
      rewrite (qsumn_ext c _ (fun i' => qsumn d (fun j' => qsumn a (fun i2 => qsumn b (fun j2 =>
         f (nth ((a * (c * i + i') + i2) * snd (shape info) + (b * (d * j + j') + j2)) data bin0)))))).
      2:{ intros i' Hi'. apply qsumn_ext. intros j' Hj'. unfold data1.
          rewrite grid_nth by lia. rewrite Hg by lia. unfold block. rewrite grid_sum. reflexivity. }
      unfold block. rewrite grid_sum.
      rewrite (qsumn_ext c _ (fun i' => qsumn d (fun j' => qsumn a (fun i2 => qsumn b (fun j2 =>
         (fun p q => f (nth ((a * (c * i) + p) * snd (shape info) + (b * (d * j) + q)) data bin0))
           (a * i' + i2)%nat (b * j' + j2)%nat))))).
      2:{ intros i' Hi'. apply qsumn_ext. intros j' Hj'. apply qsumn_ext. intros i2 Hi2. apply qsumn_ext. intros j2 Hj2.
          cbn beta. f_equal. f_equal. lia. }
      rewrite (sum_blocks (fun p q => f (nth ((a * (c * i) + p) * snd (shape info) + (b * (d * j) + q)) data bin0)) a b c d).
      rewrite (Nat.mul_comm c a), (Nat.mul_comm d b). apply qsumn_ext. intros p Hp. apply qsumn_ext. intros q Hq.
      f_equal. f_equal. lia. }
    assert (W : forall p q e, (p < fst (shape info) / a)%nat -> (q < snd (shape info) / b)%nat ->
       In e (block (snd (shape info)) a b p q data) -> 0 <= bM e /\ 0 <= bN e).
    { intros p q e Hp Hq He. apply Hw. eapply block_in in He; eauto. }
    assert (SM := S bM bM (fun p q _ _ => eq_refl)).
    assert (SN := S bN bN (fun p q _ _ => eq_refl)).
    assert (SU := S (fun x => bU x * bM x) (fun x => bU x * bM x)
       (fun p q Hp Hq => block_avg_mult bU bM _ (fun e He => proj1 (W p q e Hp Hq He)))).
    assert (SV := S (fun x => bV x * bM x) (fun x => bV x * bM x)
       (fun p q Hp Hq => block_avg_mult bV bM _ (fun e He => proj1 (W p q e Hp Hq He)))).
    assert (ST := S (fun x => bT x * bN x) (fun x => bT x * bN x)
       (fun p q Hp Hq => block_avg_mult bT bN _ (fun e He => proj2 (W p q e Hp Hq He)))).
    assert (Hh : Q2Qc (1 # 2) * (1 + 1) = 1) by (apply Qc_is_canon; reflexivity).
    apply bin_ext; unfold new_bin; cbn [bX bY bN bT bM bU bV]; unfold block_sum; rewrite ?block_avg_form, ?SM, ?SN, ?SU, ?SV, ?ST; try reflexivity.
    + cbn [new_info origin spacing fst snd]. rewrite !NQ_mul. ring.
    + cbn [new_info origin spacing fst snd]. rewrite !NQ_mul. ring.
  - unfold new_info. cbn [shape spacing origin fst snd]. rewrite !Nat.div_div by auto. rewrite !NQ_mul.
    f_equal; f_equal; ring.
Qed.

Lemma combine_succeeds data info nx ny :
  (exists r, combine_bins data info nx ny = Ok r) <->
  (nx <> 0 /\ ny <> 0 /\ length data = fst (shape info) * snd (shape info))%nat.
Proof.
  split.
  - intros [[d' i'] H]. apply (combine_guard _ _ _ _ _ _ H).
  - intros (Hx & Hy & L). eexists. apply combine_form; auto.
Qed.
