From Coq Require Import Permutation.
From Verif.Base Require Import QcX Res Np Sums ListX.
From Verif.Model Require Import Bins SimpleAverage.
From Verif.Spec Require Import MapSpec.

Lemma allclose_iff atol rtol l : forall m, allclose atol rtol l m = true <-> Forall2 (close atol rtol) l m.
Proof.
  induction l as [|a l IH]; intros [|b m]; simpl; try (split; [discriminate|intros H; inversion H]).
  - split; auto.
  - rewrite andb_true_iff, IH. unfold isclose. rewrite qle_true. split.
    + intros [H1 H2]. constructor; auto.
    + intros H. inversion H; subst. auto.
Qed.
Lemma coords_match_iff atol rtol f d : coords_match atol rtol f d = true <-> same_grid atol rtol f d.
Proof.
  unfold coords_match, same_grid. rewrite andb_true_iff, !allclose_iff, !Forall2_map, Forall2_and. reflexivity.
Qed.

(** *** Exact characterisation *)
Lemma average_ok_iff atol rtol first rest r :
  average_data atol rtol (first :: rest) = Ok r <->
  (forall d, In d rest -> same_grid atol rtol first d) /\
  r = Some (map (fun i => avg_bin (nth i first bin0) (column i (first :: rest))) (seq 0 (length first))).
Proof.
  unfold average_data. destruct (forallb (coords_match atol rtol first) rest) eqn:E.
  - rewrite forallb_forall in E. split.
    + intros H. injection H as <-. split; auto. intros d Hd. apply coords_match_iff. auto.
    + intros [_ ->]. reflexivity.
  - split; [discriminate|]. intros [H _]. exfalso.
    assert (forallb (coords_match atol rtol first) rest = true); [|congruence].
    apply forallb_forall. intros d Hd. apply coords_match_iff. auto.
Qed.
Lemma average_err_iff atol rtol data :
  (exists e, average_data atol rtol data = Err e) <->
  exists first rest, data = first :: rest /\ exists d, In d rest /\ ~ same_grid atol rtol first d.
Proof.
  destruct data as [|first rest].
  - simpl. split; [intros [e H]; discriminate|intros (f & r & H & _); discriminate].
  - unfold average_data. destruct (forallb (coords_match atol rtol first) rest) eqn:E.
    + split; [intros [e H]; discriminate|]. intros (f & r & H & d & Hd & Hn). injection H as <- <-.
      rewrite forallb_forall in E. exfalso. apply Hn. apply coords_match_iff. auto.
    + split; [|intros _; exists ValueErr; reflexivity]. intros _. exists first, rest. split; [reflexivity|].
      assert (exists d, In d rest /\ coords_match atol rtol first d = false) as (d & Hd & Hf).
      { clear -E. induction rest as [|x l IH]; simpl in E; [discriminate|].
        destruct (coords_match atol rtol first x) eqn:Ex; simpl in E.
        - destruct (IH E) as (d & Hd & H). exists d. split; [right; auto|auto].
        - exists x. split; [left; auto|auto]. }
      exists d. split; auto. intros H. apply coords_match_iff in H. congruence.
Qed.

Lemma same_grid_length atol rtol f d : same_grid atol rtol f d -> length f = length d.
Proof. apply Forall2_length. Qed.

Lemma column_bins_at i data n :
  (forall d, In d data -> length d = n) -> (i < n)%nat -> bins_at i data (column i data).
Proof.
  intros H Hi. unfold bins_at, column. induction data as [|d data IH]; simpl; constructor.
  - apply nth_error_nth'. rewrite H; simpl; auto.
  - apply IH. intros x Hx. apply H. right; auto.
Qed.
Lemma bins_at_column i data col : bins_at i data col -> col = column i data.
Proof.
  unfold bins_at, column. induction 1 as [|d b data col H _ IH]; simpl; [reflexivity|].
  f_equal; auto. symmetry. apply nth_error_nth. exact H.
Qed.

Lemma weighted_avg_spec (f w : bin -> Qc) col :
  qsum (map w col) <> 0 -> get_weighted_avg f w col * qsum (map w col) = qsum (map (fun b => f b * w b) col).
Proof.
  intros H. unfold get_weighted_avg, ediv. destruct (qeq_spec (qsum (map w col)) 0) as [E|E]; [contradiction|].
  simpl. field. exact H.
Qed.
Lemma weighted_avg_zero (f w : bin -> Qc) col :
  (forall b, In b col -> 0 <= w b) -> qsum (map w col) = 0 ->
  get_weighted_avg f w col = 0 /\ qsum (map (fun b => f b * w b) col) = 0.
Proof.
  intros Hw H.
  assert (Z : forall b, In b col -> w b = 0).
  { intros b Hb. apply (qsum_zero_nonneg (map w col)); auto; [|apply in_map; auto].
    intros x Hx. apply in_map_iff in Hx. destruct Hx as (c & <- & Hc). auto. }
  assert (S : qsum (map (fun b => f b * w b) col) = 0).
  { apply qsum_map_zero. intros b Hb. rewrite Z by auto. ring. }
  split; auto. unfold get_weighted_avg, ediv. rewrite S, H. rewrite qeq_refl. reflexivity.
Qed.
Lemma weighted_avg_mult (f w : bin -> Qc) col :
  (forall b, In b col -> 0 <= w b) ->
  get_weighted_avg f w col * qsum (map w col) = qsum (map (fun b => f b * w b) col).
Proof.
  intros Hw. destruct (Qc_eq_dec (qsum (map w col)) 0) as [E|E].
  - destruct (weighted_avg_zero f w col Hw E) as [-> ->]. ring.
  - apply weighted_avg_spec. exact E.
Qed.
Lemma weighted_avg_bounds (f w : bin -> Qc) col lo hi :
  (forall b, In b col -> 0 <= w b) -> 0 < qsum (map w col) ->
  (forall b, In b col -> w b <> 0 -> lo <= f b <= hi) ->
  lo <= get_weighted_avg f w col <= hi.
Proof.
  intros Hw Hp Hf. pose proof (wsum_bounds' f w col lo hi Hw Hf) as [B1 B2].
  unfold get_weighted_avg, ediv. destruct (qeq_spec (qsum (map w col)) 0) as [E|E]; [rewrite E in Hp; exfalso; revert Hp; apply Qcle_not_lt, Qcle_refl|].
  simpl. split; [apply qle_div_iff|apply qdiv_le_iff]; auto.
Qed.
Lemma mean_bounds {A} (f : A -> Qc) col lo hi : col <> [] ->
  (forall b, In b col -> lo <= f b <= hi) -> lo <= qmean (map f col) <= hi.
Proof.
  intros Hn Hf. unfold qmean. rewrite map_length.
  assert (0 < NQ (length col)) by (apply NQ_pos; destruct col; simpl; [congruence|lia]).
  pose proof (wsum_bounds f (fun _ => 1) col lo hi (fun _ _ => ltac:(discriminate)) Hf) as [B1 B2].
  rewrite qsum_map_const in B1, B2.
  rewrite (qsum_map_ext (fun a => f a * 1) f) in B1, B2 by (intros; ring).
  split; [apply qle_div_iff|apply qdiv_le_iff]; auto.
  - replace (lo * NQ (length col)) with (lo * (1 * NQ (length col))) by ring. exact B1.
  - replace (hi * NQ (length col)) with (hi * (1 * NQ (length col))) by ring. exact B2.
Qed.

(** Everything about one bin of a result. *)
Section Result.
Variables (atol rtol : Qc) (data : list (list bin)) (avg : list bin).
Hypothesis Hok : average_data atol rtol data = Ok (Some avg).

Lemma result_nonempty : data <> [].
Proof. intros ->. discriminate. Qed.
Lemma result_len : exists first rest, data = first :: rest /\ length avg = length first /\
  forall d, In d data -> length d = length first.
Proof.
  destruct data as [|first rest] eqn:E; [discriminate|]. apply average_ok_iff in Hok. destruct Hok as [H1 H2].
  exists first, rest. split; auto. injection H2 as ->. rewrite map_length, seq_length. split; auto.
  intros d [<-|Hd]; auto. symmetry. eapply same_grid_length. eauto.
Qed.
Lemma result_bin i b : nth_error avg i = Some b ->
  exists col, bins_at i data col /\ length col = length data /\ col <> [] /\
    (forall c, hd_error col = Some c -> b = avg_bin c col).
Proof.
  intros Hb. destruct result_len as (first & rest & E & L & Hl).
  assert (Hi : (i < length first)%nat) by (rewrite <- L; apply nth_error_Some; congruence).
  exists (column i data). split; [|split; [|split]].
  - apply (column_bins_at i data (length first)); auto.
  - unfold column. apply map_length.
  - rewrite E. discriminate.
  - intros c Hc. rewrite E in Hc. simpl in Hc. injection Hc as <-.
    pose proof Hok as K. rewrite E in K. apply average_ok_iff in K. destruct K as [_ K]. injection K as ->.
    rewrite nth_error_map_seq in Hb by exact Hi. injection Hb as <-. rewrite E. reflexivity.
Qed.
Lemma result_bin_col i b col : nth_error avg i = Some b -> bins_at i data col ->
  col <> [] /\ length col = length data /\ b = avg_bin (hd bin0 col) col.
Proof.
  intros Hb Hc. destruct (result_bin i b Hb) as (col' & H1 & H2 & H3 & H4).
  assert (col = col') by (rewrite (bins_at_column _ _ _ Hc), (bins_at_column _ _ _ H1); reflexivity). subst col'.
  split; auto. split; auto. apply H4. destruct col; [congruence|reflexivity].
Qed.
End Result.

Definition nonneg_maps (maps : list (list bin)) := forall m, In m maps -> weights_nonneg m.

Lemma bins_at_in i data col c : bins_at i data col -> In c col -> exists m, In m data /\ In c m.
Proof.
  unfold bins_at. induction 1 as [|d b data col H _ IH]; simpl; [contradiction|].
  intros [<-|Hc]; [exists d; split; auto; eapply nth_error_In; eauto|]. destruct (IH Hc) as (m & H1 & H2). eauto.
Qed.

Lemma average_conserves atol rtol data avg i b col :
  average_data atol rtol data = Ok (Some avg) ->
  nonneg_maps data ->
  nth_error avg i = Some b -> bins_at i data col ->
  let n := NQ (length data) in
  bM b * n = total bM col /\ bN b * n = total bN col /\
  bM b * bU b * n = total (fun c => bM c * bU c) col /\
  bM b * bV b * n = total (fun c => bM c * bV c) col /\
  bN b * bT b * n = total (fun c => bN c * bT c) col.
Proof.
  intros Hok Hw Hb Hc n. destruct (result_bin_col _ _ _ _ Hok i b col Hb Hc) as (Hne & Hl & ->).
  assert (Hn : n <> 0). { apply NQ_nz. rewrite <- Hl. destruct col; [congruence|simpl; lia]. }
  assert (WM : forall c, In c col -> 0 <= bM c /\ 0 <= bN c).
  { intros c Hin. destruct (bins_at_in _ _ _ _ Hc Hin) as (m & H1 & H2). apply (Hw m H1 c H2). }
  pose proof (weighted_avg_mult bU bM col (fun c H => proj1 (WM c H))) as EU.
  pose proof (weighted_avg_mult bV bM col (fun c H => proj1 (WM c H))) as EV.
  pose proof (weighted_avg_mult bT bN col (fun c H => proj2 (WM c H))) as ET.
  cbn [avg_bin bM bN bU bV bT]. unfold get_avg, qmean, total. rewrite !map_length, Hl. fold n.
  assert (C : forall f g : bin -> Qc, qsum (map (fun c => f c * g c) col) = qsum (map (fun c => g c * f c) col)).
  { intros f g. apply qsum_map_ext. intros. ring. }
  rewrite (C bM bU), (C bM bV), (C bN bT), <- EU, <- EV, <- ET.
  repeat split; field; auto.
Qed.

Lemma bins_at_exists data avg atol rtol i : average_data atol rtol data = Ok (Some avg) -> (i < length avg)%nat ->
  bins_at i data (column i data).
Proof.
  intros H Hi. destruct (result_len _ _ _ _ H) as (f & r & E & L & Hl).
  apply (column_bins_at i data (length f)); auto. lia.
Qed.

(** Totals over the map. *)
Lemma total_columns (f : bin -> Qc) data n : (forall d, In d data -> length d = n) ->
  qsum (map (total f) data) = qsumn n (fun i => total f (column i data)).
Proof.
  intros H. unfold total, column, qsumn.
  rewrite (map_ext (fun i => qsum (map f (map (fun d => nth i d bin0) data)))
                   (fun i => qsum (map (fun d => f (nth i d bin0)) data))) by (intros; rewrite map_map; reflexivity).
  rewrite <- (qsum_swap (fun d i => f (nth i d bin0)) data (seq 0 n)).
  apply qsum_map_ext. intros d Hd. rewrite (qsum_map_nth f d bin0), (H d Hd). reflexivity.
Qed.

Lemma average_totals atol rtol data avg :
  average_data atol rtol data = Ok (Some avg) -> nonneg_maps data ->
  let n := NQ (length data) in
  let sum f := qsum (map (total f) data) in
  total bM avg * n = sum bM /\ total bN avg * n = sum bN /\
  total (fun c => bM c * bU c) avg * n = sum (fun c => bM c * bU c) /\
  total (fun c => bM c * bV c) avg * n = sum (fun c => bM c * bV c) /\
  total (fun c => bN c * bT c) avg * n = sum (fun c => bN c * bT c).
Proof.
  intros Hok Hw n sum. destruct (result_len _ _ _ _ Hok) as (f0 & r0 & E & L & Hl).
  assert (K : forall f g : bin -> Qc,
    (forall i b, nth_error avg i = Some b -> f b * n = total f (column i data)) ->
    total f avg * n = sum f).
  { intros f _ H. unfold sum. rewrite (total_columns f data (length f0) Hl).
    unfold total at 1. rewrite (qsum_map_nth f avg bin0), L, <- qsumn_scale_r. apply qsumn_ext.
    intros i Hi. apply H. apply nth_error_nth'. lia. }
  assert (A : forall i b, nth_error avg i = Some b -> bins_at i data (column i data)).
  { intros i b Hb. eapply bins_at_exists; eauto. apply nth_error_Some. congruence. }
  repeat split; (apply K; [exact bM|]); intros i b Hb;
    destruct (average_conserves atol rtol data avg i b _ Hok Hw Hb (A i b Hb)) as (A1 & A2 & A3 & A4 & A5);
    assumption.
Qed.

(** *** Order independence *)
Lemma get_avg_perm f col col' : Permutation col col' -> get_avg f col = get_avg f col'.
Proof.
  intros P. unfold get_avg, qmean. rewrite !map_length, (Permutation_length P).
  f_equal. apply qsum_perm. apply Permutation_map. exact P.
Qed.
Lemma get_weighted_avg_perm f w col col' : Permutation col col' -> get_weighted_avg f w col = get_weighted_avg f w col'.
Proof.
  intros P. unfold get_weighted_avg. f_equal. f_equal; apply qsum_perm; apply Permutation_map; exact P.
Qed.
Lemma avg_bin_perm c c' col col' : Permutation col col' ->
  let a := avg_bin c col in let b := avg_bin c' col' in
  bN a = bN b /\ bT a = bT b /\ bM a = bM b /\ bU a = bU b /\ bV a = bV b.
Proof.
  intros P. cbn [avg_bin bN bT bM bU bV].
  repeat split; try apply get_avg_perm; try apply get_weighted_avg_perm; exact P.
Qed.
Lemma average_perm_values atol rtol data data' avg avg' : Permutation data data' ->
  average_data atol rtol data = Ok (Some avg) -> average_data atol rtol data' = Ok (Some avg') ->
  same_values avg avg'.
Proof.
  intros P H H'. destruct (result_len _ _ _ _ H) as (f & r & E & L & Hl).
  destruct (result_len _ _ _ _ H') as (f' & r' & E' & L' & Hl').
  assert (Ef : length f = length f').
  { symmetry. apply Hl. rewrite E. rewrite E, E' in P. apply (Permutation_in f' (Permutation_sym P)). left; auto. }
  apply Forall2_nth. split; [congruence|]. intros i a b Ha Hb.
  assert (Hi : (i < length avg)%nat) by (apply nth_error_Some; congruence).
  assert (Hi' : (i < length avg')%nat) by (apply nth_error_Some; congruence).
  destruct (result_bin_col _ _ _ _ H i a _ Ha (bins_at_exists _ _ _ _ i H Hi)) as (_ & _ & ->).
  destruct (result_bin_col _ _ _ _ H' i b _ Hb (bins_at_exists _ _ _ _ i H' Hi')) as (_ & _ & ->).
  apply avg_bin_perm. unfold column. apply Permutation_map. exact P.
Qed.

Lemma close_refl atol rtol x : 0 <= atol -> 0 <= rtol -> close atol rtol x x.
Proof.
  intros Ha Hr. unfold close. pose proof (qabs_nonneg x). replace (x - x) with 0 by ring.
  change (qabs 0) with 0. pose proof (qmult_nonneg rtol (qabs x) Hr H). qlra'.
Qed.
Lemma same_coords_grid atol rtol f d : 0 <= atol -> 0 <= rtol -> same_coords f d -> same_grid atol rtol f d.
Proof.
  intros Ha Hr. unfold same_coords, same_grid. induction 1 as [|a b l m [E1 E2] H IH]; constructor; auto.
  rewrite E1, E2. split; apply close_refl; auto.
Qed.
Lemma same_coords_sym m m' : same_coords m m' -> same_coords m' m.
Proof. apply Forall2_sym_impl. intros a b []; auto. Qed.
Lemma same_coords_trans a b c : same_coords a b -> same_coords b c -> same_coords a c.
Proof.
  unfold same_coords. intros H; revert c; induction H as [|x y l m [E1 E2] H IH]; intros c K; inversion K; subst; constructor; auto.
  destruct H2. split; congruence.
Qed.

Lemma average_same_coords_ok atol rtol data c0 : 0 <= atol -> 0 <= rtol -> data <> [] ->
  (forall m, In m data -> same_coords c0 m) ->
  exists avg, average_data atol rtol data = Ok (Some avg) /\ same_coords c0 avg.
Proof.
  intros Ha Hr Hne H. destruct data as [|first rest]; [congruence|].
  eexists. split.
  - apply average_ok_iff. split; [|reflexivity]. intros d Hd. apply same_coords_grid; auto.
    eapply same_coords_trans; [apply same_coords_sym; apply H; left; auto|]. apply H. right; auto.
  - eapply same_coords_trans; [apply H; left; reflexivity|].
    apply Forall2_nth. rewrite map_length, seq_length. split; [reflexivity|]. intros i a b Hi Hb.
    assert (Hlt : (i < length first)%nat) by (apply nth_error_Some; congruence).
    rewrite nth_error_map_seq in Hb by exact Hlt. injection Hb as <-.
    rewrite (nth_error_nth _ _ _ Hi). split; reflexivity.
Qed.

Lemma bin_ext a b : bX a = bX b -> bY a = bY b -> bN a = bN b -> bT a = bT b -> bM a = bM b -> bU a = bU b -> bV a = bV b -> a = b.
Proof. destruct a, b; simpl; intros; subst; reflexivity. Qed.

Lemma coords_values_eq m m' : same_coords m m' -> same_values m m' -> m = m'.
Proof.
  intros H K. revert K. induction H as [|a b l m [E1 E2] H IH]; intros K; inversion K; subst; [reflexivity|].
  f_equal; auto. destruct H3 as (?&?&?&?&?). apply bin_ext; auto.
Qed.

Lemma average_perm atol rtol data data' c0 : 0 <= atol -> 0 <= rtol ->
  (forall m, In m data -> same_coords c0 m) -> Permutation data data' ->
  average_data atol rtol data = average_data atol rtol data'.
Proof.
  intros Ha Hr H P. destruct data as [|f r].
  - apply Permutation_nil in P. subst. reflexivity.
  - destruct (average_same_coords_ok atol rtol (f :: r) c0 Ha Hr ltac:(discriminate) H) as (avg & E & C).
    destruct (average_same_coords_ok atol rtol data' c0 Ha Hr) as (avg' & E' & C').
    + intros ->. apply Permutation_sym, Permutation_nil in P. discriminate.
    + intros m Hm. apply H. apply (Permutation_in m (Permutation_sym P) Hm).
    + rewrite E, E'. do 2 f_equal. apply coords_values_eq.
      * eapply same_coords_trans; [apply same_coords_sym; exact C|exact C'].
      * eapply average_perm_values; eauto.
Qed.

(** *** Copies of one map *)
Lemma avg_bin_repeat b n :
  (bM b = 0 -> bU b = 0 /\ bV b = 0) -> (bN b = 0 -> bT b = 0) -> avg_bin b (repeat b (S n)) = b.
Proof.
  intros HM HN. unfold avg_bin.
  assert (R : forall f : bin -> Qc, map f (repeat b (S n)) = repeat (f b) (S n)).
  { intros f. generalize (S n). intros k. induction k; simpl; congruence. }
  assert (Hn : NQ (S n) <> 0) by (apply NQ_nz; lia).
  assert (A : forall f, get_avg f (repeat b (S n)) = f b).
  { intros f. unfold get_avg, qmean. rewrite R, qsum_repeat, repeat_length. field. exact Hn. }
  assert (W : forall f w, (w b = 0 -> f b = 0) -> get_weighted_avg f w (repeat b (S n)) = f b).
  { intros f w Hz. unfold get_weighted_avg. rewrite !R, !qsum_repeat. unfold ediv.
    destruct (qeq_spec (w b * NQ (S n)) 0) as [E|E].
    - apply Qcmult_integral in E. destruct E as [E|E]; [|contradiction]. rewrite E, Hz by exact E.
      replace (0 * 0 * NQ (S n)) with 0 by ring. reflexivity.
    - simpl. field. split; auto. intros Q. apply E. rewrite Q. ring. }
  rewrite !A, !W; auto. { destruct b; reflexivity. } all: intros K; apply HM in K; tauto.
Qed.
Lemma column_repeat i m n : column i (repeat m n) = repeat (nth i m bin0) n.
Proof. unfold column. induction n; simpl; congruence. Qed.
Lemma average_repeat atol rtol m n : 0 <= atol -> 0 <= rtol ->
  (forall b, In b m -> (bM b = 0 -> bU b = 0 /\ bV b = 0) /\ (bN b = 0 -> bT b = 0)) ->
  average_data atol rtol (repeat m (S n)) = Ok (Some m).
Proof.
  intros Ha Hr H. change (repeat m (S n)) with (m :: repeat m n). apply average_ok_iff. split.
  - intros d Hd. apply repeat_spec in Hd. subst d. apply same_coords_grid; auto.
    clear. induction m; constructor; auto.
  - f_equal. change (m :: repeat m n) with (repeat m (S n)).
    rewrite (map_ext_in _ (fun i => (fun b => b) (nth i m bin0))).
    + rewrite (map_nth_seq (fun b => b) m bin0). symmetry. apply map_id.
    + intros i Hi. apply in_seq in Hi. rewrite column_repeat. destruct (H (nth i m bin0)) as [H1 H2].
      { apply nth_In. lia. }
      apply avg_bin_repeat; auto.
Qed.

(** *** Bounds *)
Lemma average_bounds atol rtol data avg i b col (lo hi : Qc) :
  average_data atol rtol data = Ok (Some avg) -> nonneg_maps data ->
  nth_error avg i = Some b -> bins_at i data col ->
  ((forall c, In c col -> lo <= bM c <= hi) -> lo <= bM b <= hi) /\
  ((forall c, In c col -> lo <= bN c <= hi) -> lo <= bN b <= hi) /\
  (0 < total bM col -> (forall c, In c col -> bM c <> 0 -> lo <= bU c <= hi) -> lo <= bU b <= hi) /\
  (0 < total bM col -> (forall c, In c col -> bM c <> 0 -> lo <= bV c <= hi) -> lo <= bV b <= hi) /\
  (0 < total bN col -> (forall c, In c col -> bN c <> 0 -> lo <= bT c <= hi) -> lo <= bT b <= hi) /\
  (total bM col = 0 -> bU b = 0 /\ bV b = 0) /\ (total bN col = 0 -> bT b = 0).
Proof.
  intros Hok Hw Hb Hc. destruct (result_bin_col _ _ _ _ Hok i b col Hb Hc) as (Hne & Hl & ->).
  assert (WM : forall c, In c col -> 0 <= bM c /\ 0 <= bN c).
  { intros c Hin. destruct (bins_at_in _ _ _ _ Hc Hin) as (m & H1 & H2). apply (Hw m H1 c H2). }
  pose proof (fun c H => proj1 (WM c H)) as W1. pose proof (fun c H => proj2 (WM c H)) as W2.
  cbn [avg_bin bM bN bU bV bT]. unfold total.
  repeat apply conj; intros; try (apply mean_bounds; auto; fail); try (apply weighted_avg_bounds; auto; fail).
  - split; apply weighted_avg_zero; auto.
  - apply weighted_avg_zero; auto.
Qed.

(** Scaling all weights by a positive constant. *)
Definition scale_weights (c : Qc) (b : bin) : bin :=
  mkBin (bX b) (bY b) (c * bN b) (bT b) (c * bM b) (bU b) (bV b).
Lemma weighted_avg_scale c f w w' col : 0 < c -> (forall b, w' b = c * w b) ->
  (forall b, In b col -> 0 <= w b) -> get_weighted_avg f w' col = get_weighted_avg f w col.
Proof.
  intros Hc E Hw. unfold get_weighted_avg.
  rewrite (map_ext w' (fun b => c * w b)) by auto.
  rewrite (map_ext (fun b => f b * w' b) (fun b => c * (f b * w b))) by (intros; rewrite E; ring).
  rewrite !qsum_map_scale. unfold ediv.
  pose proof (qpos_nz _ Hc) as Hn.
  destruct (qeq_spec (qsum (map w col)) 0) as [E0|E0].
  - destruct (weighted_avg_zero f w col Hw E0) as [_ Z]. rewrite Z, E0.
    replace (c * 0) with 0 by ring. reflexivity.
  - destruct (qeq_spec (c * qsum (map w col)) 0) as [E1|E1].
    + apply Qcmult_integral in E1. destruct E1; contradiction.
    + simpl. field. auto.
Qed.
Lemma average_scale atol rtol c data avg : 0 < c -> nonneg_maps data ->
  average_data atol rtol data = Ok (Some avg) ->
  average_data atol rtol (map (map (scale_weights c)) data) = Ok (Some (map (scale_weights c) avg)).
Proof.
  intros Hc Hw Hok. destruct data as [|first rest]; [discriminate|].
  pose proof (result_len _ _ _ _ Hok) as (f0 & r0 & E0 & L0 & Hl). injection E0 as <- <-.
  apply average_ok_iff in Hok. destruct Hok as [HG HA].
  cbn [map]. apply average_ok_iff. split.
  - intros d Hd. apply in_map_iff in Hd. destruct Hd as (d0 & <- & Hd0). specialize (HG d0 Hd0).
    unfold same_grid in *. clear -HG. induction HG; simpl; constructor; auto.
  - injection HA as ->. f_equal. rewrite map_length, map_map. apply map_ext_in. intros i Hi. apply in_seq in Hi.
    change (map (scale_weights c) first :: map (map (scale_weights c)) rest) with (map (map (scale_weights c)) (first :: rest)).
    assert (EC : column i (map (map (scale_weights c)) (first :: rest)) = map (scale_weights c) (column i (first :: rest))).
    { unfold column. rewrite !map_map. apply map_ext_in. intros d Hd.
      rewrite (nth_indep _ bin0 (scale_weights c bin0)) by (rewrite map_length, (Hl d Hd); lia).
      apply map_nth. }
    rewrite EC. assert (EN : nth i (map (scale_weights c) first) bin0 = scale_weights c (nth i first bin0)).
    { rewrite (nth_indep _ bin0 (scale_weights c bin0)) by (rewrite map_length; lia). apply map_nth. }
    rewrite EN. set (col := column i (first :: rest)).
    assert (WM : forall b, In b col -> 0 <= bM b /\ 0 <= bN b).
    { intros b Hb. unfold col, column in Hb. apply in_map_iff in Hb. destruct Hb as (d & <- & Hd).
      apply (Hw d Hd). apply nth_In. rewrite (Hl d Hd). lia. }
    unfold avg_bin. cbn [scale_weights bX bY bN bT bM bU bV].
    assert (GA : forall f : bin -> Qc, (forall b, f (scale_weights c b) = c * f b) ->
       get_avg f (map (scale_weights c) col) = c * get_avg f col).
    { intros f Hf. unfold get_avg, qmean. rewrite map_map, !map_length.
      rewrite (map_ext (fun x => f (scale_weights c x)) (fun x => c * f x)) by auto.
      rewrite qsum_map_scale. unfold Qcdiv. ring. }
    assert (GW : forall f w : bin -> Qc, (forall b, f (scale_weights c b) = f b) -> (forall b, w (scale_weights c b) = c * w b) ->
       (forall b, In b col -> 0 <= w b) ->
       get_weighted_avg f w (map (scale_weights c) col) = get_weighted_avg f w col).
    { intros f w Hf Hww Hpos. rewrite <- (weighted_avg_scale c f w (fun b => c * w b) col Hc (fun b => eq_refl) Hpos).
      unfold get_weighted_avg. rewrite !map_map. f_equal. f_equal; f_equal; apply map_ext; intros b; rewrite ?Hf, ?Hww; ring. }
    unfold scale_weights at 1. f_equal; try (symmetry; first [apply GA | apply GW]; auto; intros b Hb; apply WM; auto).
Qed.

(** *** Averages of equal groups *)
Lemma average_groups atol rtol c0 (groups : list (list (list bin))) (g : nat) (avgs : list (list bin)) :
  0 <= atol -> 0 <= rtol -> (0 < g)%nat -> groups <> [] ->
  (forall gr, In gr groups -> length gr = g) ->
  (forall gr m, In gr groups -> In m gr -> same_coords c0 m /\ weights_nonneg m) ->
  Forall2 (fun gr a => average_data atol rtol gr = Ok (Some a)) groups avgs ->
  average_data atol rtol avgs = average_data atol rtol (concat groups).
Proof.
  intros Ha Hr Hg Hne Hlen Hall HF.
  assert (Hall2 : forall m, In m (concat groups) -> same_coords c0 m).
  { intros m Hm. apply in_concat in Hm. destruct Hm as (gr & H1 & H2). eapply Hall; eauto. }
  assert (Havgs : forall a, In a avgs -> same_coords c0 a).
  { clear Hne Hlen Hall2. revert Hall. induction HF as [|gr a groups avgs H HF IH]; intros Hall b; [intros []|].
    intros [<-|Hb].
    - destruct gr as [|m gr]; [discriminate|].
      destruct (average_same_coords_ok atol rtol (m :: gr) c0 Ha Hr ltac:(discriminate)) as (a' & E & C).
      { intros x Hx. apply (Hall (m :: gr) x); [left; auto|auto]. }
      congruence.
    - apply IH; auto. intros gr' m H1 H2. apply (Hall gr' m); [right; auto|auto]. }
  destruct (average_same_coords_ok atol rtol avgs c0 Ha Hr) as (r1 & E1 & C1).
  { intros ->. inversion HF; subst; congruence. }
  { exact Havgs. }
  assert (Hcne : concat groups <> []).
  { destruct groups as [|gr groups]; [congruence|]. simpl. specialize (Hlen gr (or_introl eq_refl)).
    destruct gr; simpl in *; [lia|discriminate]. }
  destruct (average_same_coords_ok atol rtol (concat groups) c0 Ha Hr Hcne Hall2) as (r2 & E2 & C2).
  rewrite E1, E2. do 2 f_equal. apply coords_values_eq.
  { eapply same_coords_trans; [apply same_coords_sym; exact C1|exact C2]. }
  apply Forall2_nth. assert (L1 := Forall2_length C1). assert (L2 := Forall2_length C2).
  split; [congruence|]. intros i a b Hia Hib.
  assert (Hi1 : (i < length r1)%nat) by (apply nth_error_Some; congruence).
  assert (Hi2 : (i < length r2)%nat) by (apply nth_error_Some; congruence).
  pose proof (bins_at_exists _ _ _ _ i E1 Hi1) as B1. pose proof (bins_at_exists _ _ _ _ i E2 Hi2) as B2.
  destruct (result_bin_col _ _ _ _ E1 i a _ Hia B1) as (_ & _ & ->).
  destruct (result_bin_col _ _ _ _ E2 i b _ Hib B2) as (_ & _ & ->).
  cbn [avg_bin bN bT bM bU bV].
  (* per group facts, in terms of sums *)
  assert (G : forall f w : bin -> Qc,
     (w = bM /\ (f = bU \/ f = bV)) \/ (w = bN /\ f = bT) ->
     qsum (map w (column i avgs)) * NQ g = qsum (map w (column i (concat groups))) /\
     qsum (map (fun c => f c * w c) (column i avgs)) * NQ g = qsum (map (fun c => f c * w c) (column i (concat groups)))).
  { intros f w Hfw. unfold column. rewrite concat_map, !map_map, !concat_map, !qsum_concat, !map_map.
    assert (NG : NQ g <> 0) by (apply NQ_nz; lia).
    assert (Step : forall gr a', average_data atol rtol gr = Ok (Some a') -> length gr = g ->
       (forall m, In m gr -> same_coords c0 m /\ weights_nonneg m) ->
       w (nth i a' bin0) * NQ g = qsum (map w (map (fun d => nth i d bin0) gr)) /\
       f (nth i a' bin0) * w (nth i a' bin0) * NQ g = qsum (map (fun c => f c * w c) (map (fun d => nth i d bin0) gr))).
    { intros gr a' Hav Hlg Hgm.
      assert (Li : (i < length a')%nat).
      { destruct gr as [|m gr]; [discriminate|].
        destruct (result_len _ _ _ _ Hav) as (f1 & r3 & Ef & La & _). injection Ef as <- <-.
        destruct (Hgm m (or_introl eq_refl)) as [Cm _]. apply Forall2_length in Cm. lia. }
      pose proof (bins_at_exists _ _ _ _ i Hav Li) as B.
      destruct (average_conserves atol rtol gr a' i (nth i a' bin0) (column i gr) Hav) as (A1 & A2 & A3 & A4 & A5).
      { intros m Hm. apply Hgm. auto. }
      { apply nth_error_nth'. exact Li. }
      { exact B. }
      rewrite Hlg in *. unfold total, column in *.
      assert (CM : forall f w : bin -> Qc, qsum (map (fun c => f c * w c) (map (fun d => nth i d bin0) gr)) =
                              qsum (map (fun c => w c * f c) (map (fun d => nth i d bin0) gr))).
      { intros. apply qsum_map_ext. intros. ring. }
      destruct Hfw as [[-> [->| ->]]|[-> ->]]; (split; [assumption|]); rewrite CM; rewrite <- ?A3, <- ?A4, <- ?A5; ring. }
    clear - HF Hlen Hall Step. induction HF as [|gr a' groups avgs H HF IH]; cbn [map]; rewrite ?qsum_cons.
    - rewrite !qsum_nil. split; ring.
    - destruct IH as [IH1 IH2].
      + intros; apply Hlen; right; auto.
      + intros; eapply Hall; [right; eauto|auto].
      + destruct (Step gr a' H) as [S1 S2].
        * apply Hlen. left; auto.
        * intros; apply (Hall gr); [left; auto|auto].
        * rewrite <- IH1, <- IH2, <- S1, <- S2. split; ring. }
  assert (LG : NQ (length (concat groups)) = NQ (length avgs) * NQ g).
  { rewrite <- NQ_mul. f_equal. rewrite <- (Forall2_length HF). clear -Hlen. induction groups as [|gr groups IH]; [reflexivity|].
    simpl. rewrite app_length, IH by (intros; apply Hlen; right; auto). rewrite (Hlen gr) by (left; auto). lia. }
  assert (NG : NQ g <> 0) by (apply NQ_nz; lia).
  assert (NA : NQ (length avgs) <> 0).
  { apply NQ_nz. intros K. destruct avgs; [inversion HF; subst; congruence|discriminate]. }
  assert (GA : forall f w, ((w = bM /\ (f = bU \/ f = bV)) \/ (w = bN /\ f = bT)) ->
     get_avg w (column i avgs) = get_avg w (column i (concat groups)) /\
     get_weighted_avg f w (column i avgs) = get_weighted_avg f w (column i (concat groups))).
  { intros f w Hfw. destruct (G f w Hfw) as [Q1 Q2]. split.
    - unfold get_avg, qmean. rewrite <- Q1. unfold column. rewrite !map_length, LG. field. auto.
    - unfold get_weighted_avg. rewrite <- Q1, <- Q2. unfold ediv.
      set (s := qsum (map w (column i avgs))). set (t := qsum (map (fun c => f c * w c) (column i avgs))).
      assert (Pg : 0 < NQ g) by (apply NQ_pos; lia).
      destruct (qeq_spec s 0) as [->|Es].
      + replace (0 * NQ g) with 0 by ring. rewrite qeq_refl.
        destruct (qeq_spec t 0) as [->|Et].
        * replace (0 * NQ g) with 0 by ring. rewrite qeq_refl. reflexivity.
        * destruct (qeq_spec (t * NQ g) 0) as [Z|Z]; [apply Qcmult_integral in Z; tauto|].
          destruct (qlt_spec 0 t) as [H1|H1], (qlt_spec 0 (t * NQ g)) as [H2|H2]; auto; exfalso.
          -- apply H2. apply qmult_pos; auto.
          -- apply H1. apply Qcnot_le_lt. intros K. apply (Qcle_not_lt (t * NQ g) 0); auto. qc2q. nra.
      + destruct (qeq_spec (s * NQ g) 0) as [Z|Z]; [apply Qcmult_integral in Z; tauto|].
        simpl. field. auto. }
  destruct (GA bU bM ltac:(auto)) as [M1 M2]. destruct (GA bV bM ltac:(auto)) as [_ M3]. destruct (GA bT bN ltac:(auto)) as [N1 N2].
  auto.
Qed.

Lemma average_accepts atol rtol first rest :
  (exists avg, average_data atol rtol (first :: rest) = Ok (Some avg)) <->
  (forall m, In m rest -> same_grid atol rtol first m).
Proof.
  split.
  - intros [avg H]. apply average_ok_iff in H. tauto.
  - intros H. eexists. apply average_ok_iff. split; auto.
Qed.
Lemma average_rejects atol rtol first rest m :
  In m rest -> ~ same_grid atol rtol first m ->
  average_data atol rtol (first :: rest) = Err ValueErr.
Proof.
  intros Hm Hn. unfold average_data. destruct (forallb (coords_match atol rtol first) rest) eqn:E; [|reflexivity].
  rewrite forallb_forall in E. exfalso. apply Hn. apply coords_match_iff. auto.
Qed.
Lemma average_coords atol rtol first rest avg :
  average_data atol rtol (first :: rest) = Ok (Some avg) -> same_coords first avg.
Proof.
  intros H. apply average_ok_iff in H. destruct H as [_ H]. injection H as ->.
  apply Forall2_nth. rewrite map_length, seq_length. split; [reflexivity|]. intros i a b Hi Hb.
  assert (Hlt : (i < length first)%nat) by (apply nth_error_Some; congruence).
  rewrite nth_error_map_seq in Hb by exact Hlt. injection Hb as <-.
  rewrite (nth_error_nth _ _ _ Hi). split; reflexivity.
Qed.
