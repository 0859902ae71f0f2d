(** Finite sums over index ranges and grids. *)
From Coq Require Import Permutation.
From Verif.Base Require Import QcX.

Definition qsumn (n : nat) (f : nat -> Qc) : Qc := qsum (map f (seq 0 n)).

Lemma qsumn_0 f : qsumn 0 f = 0. Proof. reflexivity. Qed.
Lemma seq_S_end a n : seq a (S n) = seq a n ++ [(a + n)%nat].
Proof.
  revert a; induction n as [|n IH]; intros a; simpl.
  - f_equal. lia.
  - f_equal. change (seq (S a) (S n) = seq (S a) n ++ [(a + S n)%nat]). rewrite IH. f_equal. f_equal. lia.
Qed.
Lemma qsumn_S n f : qsumn (S n) f = qsumn n f + f n.
Proof. unfold qsumn. rewrite seq_S_end, map_app, qsum_app. simpl. ring. Qed.
Lemma qsumn_S_head n f : qsumn (S n) f = f 0%nat + qsumn n (fun i => f (S i)).
Proof. unfold qsumn. cbn [seq map]. rewrite qsum_cons. rewrite <- seq_shift, map_map. reflexivity. Qed.
Lemma qsumn_ext n f g : (forall i, (i < n)%nat -> f i = g i) -> qsumn n f = qsumn n g.
Proof. intros H. apply qsum_map_ext. intros a Ha. apply in_seq in Ha. apply H. lia. Qed.
Lemma qsumn_plus n f g : qsumn n (fun i => f i + g i) = qsumn n f + qsumn n g.
Proof. apply qsum_map_plus. Qed.
Lemma qsumn_scale n c f : qsumn n (fun i => c * f i) = c * qsumn n f.
Proof. apply qsum_map_scale. Qed.
Lemma qsumn_scale_r n c f : qsumn n (fun i => f i * c) = qsumn n f * c.
Proof. apply qsum_map_scale_r. Qed.
Lemma qsumn_const n c : qsumn n (fun _ => c) = c * NQ n.
Proof. unfold qsumn. rewrite qsum_map_const, seq_length. reflexivity. Qed.
Lemma qsumn_swap n m f : qsumn n (fun i => qsumn m (f i)) = qsumn m (fun j => qsumn n (fun i => f i j)).
Proof. apply qsum_swap. Qed.
Lemma qsumn_zero n f : (forall i, (i < n)%nat -> f i = 0) -> qsumn n f = 0.
Proof. intros H. rewrite (qsumn_ext n f (fun _ => 0)) by exact H. rewrite qsumn_const. ring. Qed.
Lemma qsumn_le n f g : (forall i, (i < n)%nat -> f i <= g i) -> qsumn n f <= qsumn n g.
Proof. intros H. apply qsum_le. intros a Ha. apply in_seq in Ha. apply H. lia. Qed.
Lemma qsumn_nonneg n f : (forall i, (i < n)%nat -> 0 <= f i) -> 0 <= qsumn n f.
Proof.
  intros H. apply qsum_nonneg. intros x Hx. apply in_map_iff in Hx. destruct Hx as (i & <- & Hi).
  apply in_seq in Hi. apply H. lia.
Qed.
Lemma qsumn_add n m f : qsumn (n + m) f = qsumn n f + qsumn m (fun i => f (n + i)%nat).
Proof.
  induction m as [|m IH].
  - rewrite Nat.add_0_r, qsumn_0. ring.
  - replace (n + S m)%nat with (S (n + m)) by lia. rewrite !qsumn_S, IH. ring.
Qed.
Lemma qsumn_mul m n f : qsumn (m * n) f = qsumn m (fun i => qsumn n (fun a => f (i * n + a)%nat)).
Proof.
  induction m as [|m IH]; [reflexivity|].
  rewrite qsumn_S. replace (S m * n)%nat with (m * n + n)%nat by lia. rewrite qsumn_add, IH. reflexivity.
Qed.
Lemma qsum_nth l d : qsum l = qsumn (length l) (fun i => nth i l d).
Proof.
  induction l as [|x l IH]; [reflexivity|]. cbn [length]. rewrite qsumn_S_head, qsum_cons, IH. reflexivity.
Qed.
Lemma qsum_map_nth {A} (f : A -> Qc) l d : qsum (map f l) = qsumn (length l) (fun i => f (nth i l d)).
Proof.
  induction l as [|x l IH]; [reflexivity|]. cbn [length map]. rewrite qsumn_S_head, qsum_cons, IH. reflexivity.
Qed.
Lemma qsumn_single n k f : (k < n)%nat -> (forall i, (i < n)%nat -> i <> k -> f i = 0) -> qsumn n f = f k.
Proof.
  intros Hk H. replace n with (k + (1 + (n - k - 1)))%nat by lia.
  rewrite !qsumn_add. rewrite (qsumn_zero k) by (intros; apply H; lia).
  rewrite (qsumn_zero (n - k - 1)) by (intros; apply H; lia).
  rewrite qsumn_S, qsumn_0. rewrite Nat.add_0_r. ring.
Qed.
Lemma qsumn_rev n f : qsumn n f = qsumn n (fun i => f (n - 1 - i)%nat).
Proof.
  induction n as [|n IH]; [reflexivity|]. rewrite qsumn_S, qsumn_S_head, IH.
  replace (S n - 1 - 0)%nat with n by lia.
  rewrite (qsumn_ext n (fun i => f (S n - 1 - S i)%nat) (fun i => f (n - 1 - i)%nat)) by (intros; f_equal; lia). ring.
Qed.

(** Weighted sums are between the bounds times the weight. *)
Lemma wsum_bounds {A} (f w : A -> Qc) l lo hi :
  (forall a, In a l -> 0 <= w a) -> (forall a, In a l -> lo <= f a <= hi) ->
  lo * qsum (map w l) <= qsum (map (fun a => f a * w a) l) <= hi * qsum (map w l).
Proof.
  intros Hw Hf. rewrite <- !qsum_map_scale. split; apply qsum_le; intros a Ha;
  specialize (Hw a Ha); destruct (Hf a Ha); qc2q; nra.
Qed.
(* the value only matters where the weight is not zero *)
Lemma wsum_bounds' {A} (f w : A -> Qc) l lo hi :
  (forall a, In a l -> 0 <= w a) -> (forall a, In a l -> w a <> 0 -> lo <= f a <= hi) ->
  lo * qsum (map w l) <= qsum (map (fun a => f a * w a) l) <= hi * qsum (map w l).
Proof.
  intros Hw Hf. rewrite <- !qsum_map_scale. split; apply qsum_le; intros a Ha;
  specialize (Hw a Ha); (destruct (Qc_eq_dec (w a) 0) as [E|E]; [rewrite E; qlra'|]);
  destruct (Hf a Ha E); qc2q; nra.
Qed.

(** Grids in row-major order. *)
Definition grid {A} (n m : nat) (f : nat -> nat -> A) : list A :=
  flat_map (fun i => map (f i) (seq 0 m)) (seq 0 n).

Lemma grid_length {A} n m (f : nat -> nat -> A) : length (grid n m f) = (n * m)%nat.
Proof.
  unfold grid. generalize 0%nat at 2. induction n as [|n IH]; intros a; [reflexivity|].
  cbn [seq flat_map]. rewrite app_length, map_length, seq_length, IH. reflexivity.
Qed.
Lemma flat_map_ext_in {A B} (f g : A -> list B) l : (forall a, In a l -> f a = g a) -> flat_map f l = flat_map g l.
Proof. induction l as [|x l IH]; simpl; intros H; [reflexivity|]. rewrite H, IH by auto. reflexivity. Qed.
Lemma grid_ext {A} n m (f g : nat -> nat -> A) :
  (forall i j, (i < n)%nat -> (j < m)%nat -> f i j = g i j) -> grid n m f = grid n m g.
Proof.
  intros H. unfold grid. apply flat_map_ext_in. intros i Hi. apply in_seq in Hi.
  apply map_ext_in. intros j Hj. apply in_seq in Hj. apply H; lia.
Qed.
Lemma grid_map {A B} (h : A -> B) n m f : map h (grid n m f) = grid n m (fun i j => h (f i j)).
Proof.
  unfold grid. generalize (seq 0 n). intros l. induction l as [|x l IH]; simpl; [reflexivity|].
  rewrite map_app, map_map, IH. reflexivity.
Qed.
Lemma grid_S {A} n m (f : nat -> nat -> A) :
  grid (S n) m f = map (f 0%nat) (seq 0 m) ++ grid n m (fun i => f (S i)).
Proof. unfold grid. cbn [seq flat_map]. f_equal. rewrite <- seq_shift, flat_map_concat_map, map_map, <- flat_map_concat_map. reflexivity. Qed.
Lemma grid_nth_error {A} n m (f : nat -> nat -> A) i j : (i < n)%nat -> (j < m)%nat ->
  nth_error (grid n m f) (i * m + j) = Some (f i j).
Proof.
  revert f i; induction n as [|n IH]; intros f i Hi Hj; [lia|]. rewrite grid_S.
  destruct i as [|i].
  - rewrite nth_error_app1 by (rewrite map_length, seq_length; lia). simpl.
    rewrite (map_nth_error (f 0%nat) j (seq 0 m) (d := j)); [reflexivity|].
    rewrite (nth_error_nth' _ 0%nat) by (rewrite seq_length; lia). rewrite seq_nth by lia. f_equal.
  - rewrite nth_error_app2 by (rewrite map_length, seq_length; nia). rewrite map_length, seq_length.
    replace (S i * m + j - m)%nat with (i * m + j)%nat by nia. rewrite IH by lia. reflexivity.
Qed.
Lemma grid_nth {A} n m (f : nat -> nat -> A) i j d : (i < n)%nat -> (j < m)%nat ->
  nth (i * m + j) (grid n m f) d = f i j.
Proof. intros. apply nth_error_nth. apply grid_nth_error; auto. Qed.
Lemma grid_of_list {A} (l : list A) n m d : length l = (n * m)%nat ->
  l = grid n m (fun i j => nth (i * m + j) l d).
Proof.
  intros H. apply (nth_ext _ _ d d); [rewrite grid_length; exact H|].
  intros k Hk. rewrite H in Hk.
  assert (Hm : (m <> 0)%nat) by nia.
  pose proof (Nat.div_mod k m Hm) as D. pose proof (Nat.mod_upper_bound k m Hm) as M.
  assert (Hi : (k / m < n)%nat) by (apply Nat.div_lt_upper_bound; nia).
  rewrite D at 2. rewrite (Nat.mul_comm m (k / m)). rewrite grid_nth by auto. f_equal. lia.
Qed.
Lemma grid_sum {A} (h : A -> Qc) n m f :
  qsum (map h (grid n m f)) = qsumn n (fun i => qsumn m (fun j => h (f i j))).
Proof.
  revert f; induction n as [|n IH]; intros f; [reflexivity|].
  rewrite grid_S, map_app, qsum_app, IH, qsumn_S_head, map_map. reflexivity.
Qed.
Lemma in_grid {A} n m (f : nat -> nat -> A) x :
  In x (grid n m f) <-> exists i j, (i < n)%nat /\ (j < m)%nat /\ x = f i j.
Proof.
  unfold grid. rewrite in_flat_map. split.
  - intros (i & Hi & Hx). apply in_map_iff in Hx. destruct Hx as (j & <- & Hj).
    apply in_seq in Hi, Hj. exists i, j. split; [lia|]. split; [lia|reflexivity].
  - intros (i & j & Hi & Hj & ->). exists i. split; [apply in_seq; lia|].
    apply in_map. apply in_seq. lia.
Qed.
