(** Facts about records on a regular grid in any order. *)
From Coq Require Import String Permutation.
From Verif.Base Require Import QcX Res Np Sums ListX Sort.
From Verif.Model Require Import Flow GridAverage.
From Verif.Spec Require Import FlowSpec GridSpec.
From Verif.Proofs Require Import FlowP GridAverageP.
Local Open Scope list_scope.

Lemma sorted_of_nth {A} (le : A -> A -> bool) l :
  (forall i j a b, (i < j)%nat -> nth_error l i = Some a -> nth_error l j = Some b -> le a b = true) -> sorted le l.
Proof.
  induction l as [|x l IH]; intros H; constructor.
  - intros y Hy. destruct (In_nth_error _ _ Hy) as (n & Hn). apply (H 0%nat (S n)); simpl; auto; lia.
  - apply IH. intros i j a b Hij Ha Hb. apply (H (S i) (S j)); simpl; auto; lia.
Qed.

(** filtering a grid *)
Lemma filter_map {A B} (f : A -> B) p l : filter p (map f l) = map f (filter (fun a => p (f a)) l).
Proof. induction l as [|a l IH]; simpl; [reflexivity|]. destruct (p (f a)); simpl; rewrite IH; reflexivity. Qed.
Lemma filter_flat_map {A B} (f : A -> list B) p l : filter p (flat_map f l) = flat_map (fun a => filter p (f a)) l.
Proof. induction l as [|a l IH]; simpl; [reflexivity|]. rewrite filter_app, IH. reflexivity. Qed.
Lemma filter_none {A} (p : A -> bool) l : (forall a, In a l -> p a = false) -> filter p l = [].
Proof. induction l as [|a l IH]; simpl; intros H; [reflexivity|]. rewrite (H a) by auto. apply IH; auto. Qed.
Lemma filter_all {A} (p : A -> bool) l : (forall a, In a l -> p a = true) -> filter p l = l.
Proof. induction l as [|a l IH]; simpl; intros H; [reflexivity|]. rewrite (H a), IH by auto. reflexivity. Qed.
Lemma filter_ext_in' {A} (p q : A -> bool) l : (forall a, In a l -> p a = q a) -> filter p l = filter q l.
Proof. intros. apply filter_ext_in. assumption. Qed.
Lemma filter_grid {A} n m (f : nat -> nat -> A) (p : A -> bool) (pj pi : nat -> bool) :
  (forall j i, (j < n)%nat -> (i < m)%nat -> p (f j i) = (pj j && pi i)%bool) ->
  filter p (grid n m f) = flat_map (fun j => map (f j) (filter pi (seq 0 m))) (filter pj (seq 0 n)).
Proof.
  intros H. unfold grid. rewrite filter_flat_map.
  assert (forall s, (forall j, In j s -> (j < n)%nat) ->
    flat_map (fun a => filter p (map (f a) (seq 0 m))) s = flat_map (fun j => map (f j) (filter pi (seq 0 m))) (filter pj s)) as K.
  { induction s as [|j s IH]; simpl; intros Hs; [reflexivity|]. rewrite IH by auto. rewrite filter_map.
    rewrite (filter_ext_in' (fun a => p (f j a)) (fun i => (pj j && pi i)%bool)).
    2:{ intros i Hi. apply in_seq in Hi. apply H; [apply Hs; auto|lia]. }
    destruct (pj j); cbn [andb flat_map]; [reflexivity|]. rewrite (filter_none (fun _ => false)) by reflexivity. reflexivity. }
  apply K. intros j Hj. apply in_seq in Hj. lia.
Qed.
Lemma filter_seq_interval p lo k m : (lo + k <= m)%nat ->
  (forall i, (i < m)%nat -> p i = true <-> (lo <= i < lo + k)%nat) -> filter p (seq 0 m) = seq lo k.
Proof.
  intros Hm H. replace m with (lo + (k + (m - lo - k)))%nat by lia. rewrite !seq_app. rewrite !filter_app. cbn [Nat.add].
  rewrite (filter_none p (seq 0 lo)). 2:{ intros i Hi. apply in_seq in Hi. destruct (p i) eqn:E; [|reflexivity]. apply H in E; lia. }
  rewrite (filter_all p (seq lo k)). 2:{ intros i Hi. apply in_seq in Hi. apply H; lia. }
  rewrite (filter_none p (seq (lo + k) _)). 2:{ intros i Hi. apply in_seq in Hi. destruct (p i) eqn:E; [|reflexivity]. apply H in E; lia. }
  rewrite app_nil_r. reflexivity.
Qed.
(** a convex selection of 0 .. m-1 is an interval *)
Lemma convex_interval (p : nat -> bool) m : (forall a b c, (a <= c <= b)%nat -> p a = true -> p b = true -> p c = true) ->
  exists lo k, (lo + k <= m)%nat /\ forall i, (i < m)%nat -> p i = true <-> (lo <= i < lo + k)%nat.
Proof.
  intros Hc. induction m as [|m (lo & k & Hm & H)]; [exists 0%nat, 0%nat; split; [lia|intros; lia]|].
  destruct (p m) eqn:E.
  - destruct (Nat.eq_dec k 0) as [->|Hk].
    + exists m, 1%nat. split; [lia|]. intros i Hi. destruct (Nat.eq_dec i m) as [->|N]; [rewrite E; split; [lia|reflexivity]|].
      rewrite H by lia. lia.
    + assert (lo + k = m)%nat as HK.
      { destruct (Nat.eq_dec (lo + k) m) as [|N]; [assumption|exfalso].
        assert (p (lo + k)%nat = true) as C. { apply (Hc lo m); [lia| |assumption]. apply H; lia. } apply H in C; lia. }
      exists lo, (S k). split; [lia|]. intros i Hi. destruct (Nat.eq_dec i m) as [->|N]; [rewrite E; split; [lia|reflexivity]|]. rewrite H by lia. lia.
  - exists lo, k. split; [lia|]. intros i Hi. destruct (Nat.eq_dec i m) as [->|N]; [rewrite E; split; [discriminate|lia]|]. apply H. lia.
Qed.
Lemma grid_of_seqs {A} lo k lo' k' (f : nat -> nat -> A) :
  flat_map (fun j => map (f j) (seq lo k)) (seq lo' k') = grid k' k (fun j i => f (lo' + j)%nat (lo + i)%nat).
Proof.
  unfold grid.
  assert (forall n a, seq (a + n) k' = map (fun j => a + j)%nat (seq n k')) as HS'.
  { intros n a. revert n. induction k' as [|k'' IH]; intros n; simpl; [reflexivity|]. f_equal. rewrite <- IH. f_equal. lia. }
  assert (forall j, map (f j) (seq lo k) = map (fun i => f j (lo + i)%nat) (seq 0 k)) as HS.
  { intros j. replace (seq lo k) with (map (fun i => lo + i)%nat (seq 0 k)).
    - rewrite map_map. reflexivity.
    - clear. revert lo. assert (forall n lo, map (fun i => (lo + i)%nat) (seq n k) = seq (lo + n) k) as G.
      { induction k as [|k IH]; intros n lo; simpl; [reflexivity|]. f_equal. rewrite IH. f_equal. lia. }
      intros lo. rewrite G. f_equal. lia. }
  replace (seq lo' k') with (map (fun j => lo' + j)%nat (seq 0 k')). 2:{ rewrite <- HS'. f_equal. lia. }
  rewrite flat_map_concat_map, map_map, <- flat_map_concat_map. apply flat_map_ext. intros j. apply HS.
Qed.

Lemma step_lt z d i j : 0 < d -> (i < j)%nat -> z + NQ i * d < z + NQ j * d.
Proof.
  intros Hd H. replace j with (i + S (j - i - 1))%nat by lia. rewrite NQ_add, NQ_S.
  pose proof (NQ_nonneg (j - i - 1)) as N. pose proof (qmult_nonneg _ _ N (qc_lt_le _ _ Hd)) as K.
  replace ((NQ i + (NQ (j - i - 1) + 1)) * d) with (NQ i * d + NQ (j - i - 1) * d + d) by ring.
  generalize dependent (NQ (j - i - 1) * d). generalize (NQ i * d). intros. qlra'.
Qed.

Section Gridded.
Variables (ls : list string) (kx ky : nat) (x0 y0 dx dy : Qc) (nx ny : nat).
Hypothesis HX : index_of "X"%string ls = Some kx.
Hypothesis HY : index_of "Y"%string ls = Some ky.
Hypothesis Hdx : 0 < dx.
Hypothesis Hdy : 0 < dy.

Lemma reg_row g i j : regular ls x0 y0 dx dy nx ny g -> (i < nx)%nat -> (j < ny)%nat ->
  In (at_ (j * nx + i) g) g /\ col kx (at_ (j * nx + i) g) = x0 + NQ i * dx /\ col ky (at_ (j * nx + i) g) = y0 + NQ j * dy /\
  List.length (at_ (j * nx + i) g) = List.length ls.
Proof.
  intros (H1 & H2 & H3) Hi Hj. destruct (H3 i j Hi Hj) as [A B].
  assert (In (at_ (j * nx + i) g) g) as HI. { apply nth_In. rewrite H1. apply rm_lt; assumption. }
  rewrite (fld_col _ _ _ _ HX) in A. rewrite (fld_col _ _ _ _ HY) in B. auto.
Qed.
Lemma reg_in g r : regular ls x0 y0 dx dy nx ny g -> In r g -> exists i j, (i < nx)%nat /\ (j < ny)%nat /\ r = at_ (j * nx + i) g.
Proof.
  intros (H1 & _) H. destruct (In_nth _ _ [] H) as (p & Hp & E).
  rewrite H1 in Hp. destruct (rm_split _ _ _ Hp) as (i & j & Hi & Hj & ->). exists i, j. auto.
Qed.
Lemma reg_eq_grid g : regular ls x0 y0 dx dy nx ny g -> g = grid ny nx (fun j i => at_ (j * nx + i) g).
Proof. intros (H1 & _). apply (grid_of_list g ny nx []). assumption. Qed.


Lemma reg_sorted g : regular ls x0 y0 dx dy nx ny g -> sorted (key_le ky kx) g.
Proof.
  intros R. apply sorted_of_nth. intros p q a b Hpq Ha Hb.
  pose proof (proj1 R) as L.
  assert (p < ny * nx)%nat as Hp. { rewrite <- L. apply nth_error_Some. congruence. }
  assert (q < ny * nx)%nat as Hq. { rewrite <- L. apply nth_error_Some. congruence. }
  destruct (rm_split _ _ _ Hp) as (i & j & Hi & Hj & ->). destruct (rm_split _ _ _ Hq) as (i' & j' & Hi' & Hj' & ->).
  apply (nth_error_nth _ _ []) in Ha, Hb. destruct (reg_row g i j R Hi Hj) as (_ & A1 & A2 & _). destruct (reg_row g i' j' R Hi' Hj') as (_ & B1 & B2 & _).
  unfold at_ in *. rewrite Ha in A1, A2. rewrite Hb in B1, B2. unfold key_le, sort_key. rewrite !lexle_cons, A1, A2, B1, B2.
  destruct (Nat.lt_trichotomy j j') as [C|[C|C]].
  - left. apply step_lt; assumption.
  - subst j'. right. split; [reflexivity|]. left. apply step_lt; [assumption|lia].
  - exfalso. nia.
Qed.
Lemma gridded_sort g rows : Permutation rows g -> regular ls x0 y0 dx dy nx ny g ->
  sort_table (mkTable ls rows) = Ok (mkTable ls g).
Proof.
  intros P R. rewrite (sort_canonical (mkTable ls rows) (mkTable ls g)) by (try reflexivity; exact P).
  unfold sort_table. cbn [labels Flow.rows]. rewrite HX, HY. do 2 f_equal. apply (isort_id (key_le ky kx)).
  - apply key_total. - apply key_trans. - apply key_antisym. - apply reg_sorted. assumption.
Qed.

Lemma gridded_xs rows v : (0 < ny)%nat -> gridded ls x0 y0 dx dy nx ny rows -> In v (map (col kx) rows) <-> exists i, (i < nx)%nat /\ v = x0 + NQ i * dx.
Proof.
  intros Hny (g & P & R). rewrite in_map_iff. split.
  - intros (r & <- & Hr). apply (Permutation_in _ P) in Hr. destruct (reg_in g r R Hr) as (i & j & Hi & Hj & ->). exists i. split; [assumption|]. apply (reg_row g i j R Hi Hj).
  - intros (i & Hi & ->). destruct (reg_row g i 0 R Hi Hny) as (H1 & H2 & _). eexists. split; [exact H2|]. apply (Permutation_in _ (Permutation_sym P)). assumption.
Qed.
Lemma gridded_ys rows v : (0 < nx)%nat -> gridded ls x0 y0 dx dy nx ny rows -> In v (map (col ky) rows) <-> exists j, (j < ny)%nat /\ v = y0 + NQ j * dy.
Proof.
  intros Hnx (g & P & R). rewrite in_map_iff. split.
  - intros (r & <- & Hr). apply (Permutation_in _ P) in Hr. destruct (reg_in g r R Hr) as (i & j & Hi & Hj & ->). exists j. split; [assumption|]. apply (reg_row g i j R Hi Hj).
  - intros (j & Hj & ->). destruct (reg_row g 0 j R Hnx Hj) as (H1 & _ & H2 & _). eexists. split; [exact H2|]. apply (Permutation_in _ (Permutation_sym P)). assumption.
Qed.
Lemma count_positions z d n l : 0 < d -> (forall v, In v l <-> exists i, (i < n)%nat /\ v = z + NQ i * d) -> List.length (unique l) = n.
Proof.
  intros Hd H. apply Nat2Z.inj. apply (grid_count z d); [assumption|apply increasing_nodup, unique_inc| |lia].
  intros v. rewrite unique_in, H. split.
  - intros (i & Hi & ->). exists (Z.of_nat i). split; [lia|reflexivity].
  - intros (i & Hi & ->). exists (Z.to_nat i). unfold NQ. rewrite Z2Nat.id by lia. split; [lia|reflexivity].
Qed.
Lemma min_positions z d n l : 0 < d -> (0 < n)%nat -> (forall v, In v l <-> exists i, (i < n)%nat /\ v = z + NQ i * d) -> list_min l = Some z.
Proof.
  intros Hd Hn H. apply list_min_spec. split.
  - apply H. exists 0%nat. split; [assumption|]. rewrite NQ_0. ring.
  - intros v Hv. apply H in Hv. destruct Hv as (i & Hi & ->). destruct i as [|i]; [rewrite NQ_0; replace (z + 0 * d) with z by ring; apply Qcle_refl|].
    apply qc_lt_le. pose proof (step_lt z d 0 (S i) Hd) as K. rewrite NQ_0 in K. replace (z + 0 * d) with z in K by ring. apply K. lia.
Qed.
Lemma gridded_min_x rows : (0 < nx)%nat -> (0 < ny)%nat -> gridded ls x0 y0 dx dy nx ny rows -> col_min kx rows = Ok x0.
Proof. intros Hx Hy G. unfold col_min. rewrite (min_positions x0 dx nx); [reflexivity|assumption|assumption|]. intros v. apply gridded_xs; assumption. Qed.
Lemma gridded_min_y rows : (0 < nx)%nat -> (0 < ny)%nat -> gridded ls x0 y0 dx dy nx ny rows -> col_min ky rows = Ok y0.
Proof. intros Hx Hy G. unfold col_min. rewrite (min_positions y0 dy ny); [reflexivity|assumption|assumption|]. intros v. apply gridded_ys; assumption. Qed.
Lemma gridded_count_x rows : (0 < ny)%nat -> gridded ls x0 y0 dx dy nx ny rows -> List.length (unique (map (col kx) rows)) = nx.
Proof. intros Hy G. apply (count_positions x0 dx); [assumption|]. intros v. apply gridded_xs; assumption. Qed.
Lemma gridded_count_y rows : (0 < nx)%nat -> gridded ls x0 y0 dx dy nx ny rows -> List.length (unique (map (col ky) rows)) = ny.
Proof. intros Hy G. apply (count_positions y0 dy); [assumption|]. intros v. apply gridded_ys; assumption. Qed.
Lemma gridded_length rows : gridded ls x0 y0 dx dy nx ny rows -> List.length rows = (ny * nx)%nat.
Proof. intros (g & P & (L & _)). rewrite (Permutation_length P). assumption. Qed.
Lemma gridded_wf rows r : gridded ls x0 y0 dx dy nx ny rows -> In r rows -> List.length r = List.length ls.
Proof. intros (g & P & (_ & L & _)) Hr. apply L. apply (Permutation_in _ P). assumption. Qed.
End Gridded.

(** The records of a grid which are inside limits make up a grid. *)
Lemma Permutation_filter {A} (p : A -> bool) l m : Permutation l m -> Permutation (filter p l) (filter p m).
Proof.
  induction 1 as [|x l m P IH|x y l|l m k P1 IH1 P2 IH2]; simpl; [constructor|destruct (p x); [constructor; assumption|assumption]| |etransitivity; eassumption].
  destruct (p x), (p y); try constructor; apply Permutation_refl.
Qed.
Lemma inside_convex lo hi z d a b c : 0 < d -> (a <= c <= b)%nat -> inside lo hi (z + NQ a * d) -> inside lo hi (z + NQ b * d) -> inside lo hi (z + NQ c * d).
Proof.
  intros Hd [H1 H2] [A1 A2] [B1 B2].
  assert (forall i j, (i <= j)%nat -> z + NQ i * d <= z + NQ j * d) as M.
  { intros i j H. destruct (Nat.eq_dec i j) as [->|N]; [apply Qcle_refl|]. apply qc_lt_le, step_lt; [assumption|lia]. }
  split; intros q E.
  - specialize (A1 q E). specialize (M a c H1). generalize dependent (z + NQ a * d). generalize dependent (z + NQ c * d). intros; qlra'.
  - specialize (B2 q E). specialize (M c b H2). generalize dependent (z + NQ b * d). generalize dependent (z + NQ c * d). intros; qlra'.
Qed.
Lemma gridded_filter ls kx ky x0 y0 dx dy nx ny rows xlim ylim :
  index_of "X"%string ls = Some kx -> index_of "Y"%string ls = Some ky -> 0 < dx -> 0 < dy ->
  gridded ls x0 y0 dx dy nx ny rows ->
  exists i0 j0 mx my, (i0 + mx <= nx)%nat /\ (j0 + my <= ny)%nat /\
    (forall i, (i < nx)%nat -> inside (fst xlim) (snd xlim) (x0 + NQ i * dx) <-> (i0 <= i < i0 + mx)%nat) /\
    (forall j, (j < ny)%nat -> inside (fst ylim) (snd ylim) (y0 + NQ j * dy) <-> (j0 <= j < j0 + my)%nat) /\
    gridded ls (x0 + NQ i0 * dx) (y0 + NQ j0 * dy) dx dy mx my
      (filter (fun r => (within (fst xlim) (snd xlim) (col kx r) && within (fst ylim) (snd ylim) (col ky r))%bool) rows).
Proof.
  intros HX HY Hdx Hdy (g & P & R).
  set (pi := fun i => within (fst xlim) (snd xlim) (x0 + NQ i * dx)).
  set (pj := fun j => within (fst ylim) (snd ylim) (y0 + NQ j * dy)).
  destruct (convex_interval pi nx) as (i0 & mx & Hi0 & Hpi).
  { intros a b c H A B. unfold pi in *. rewrite within_spec in *. apply (inside_convex _ _ _ _ a b c); assumption. }
  destruct (convex_interval pj ny) as (j0 & my & Hj0 & Hpj).
  { intros a b c H A B. unfold pj in *. rewrite within_spec in *. apply (inside_convex _ _ _ _ a b c); assumption. }
  exists i0, j0, mx, my. split; [assumption|]. split; [assumption|].
  split; [intros i Hi; rewrite <- Hpi by assumption; unfold pi; rewrite within_spec; reflexivity|].
  split; [intros j Hj; rewrite <- Hpj by assumption; unfold pj; rewrite within_spec; reflexivity|].
  exists (grid my mx (fun j i => at_ ((j0 + j) * nx + (i0 + i)) g)). split.
  - etransitivity; [apply Permutation_filter; exact P|]. rewrite (reg_eq_grid ls x0 y0 dx dy nx ny g R) at 1.
    rewrite (filter_grid ny nx _ _ pj pi).
    + rewrite (filter_seq_interval pi i0 mx nx), (filter_seq_interval pj j0 my ny) by assumption.
      rewrite grid_of_seqs. apply Permutation_refl.
    + intros j i Hj Hi. destruct (reg_row ls kx ky x0 y0 dx dy nx ny HX HY g i j R Hi Hj) as (_ & -> & -> & _). rewrite andb_comm. reflexivity.
  - split; [apply grid_length|]. split.
    + intros r Hr. apply in_grid in Hr. destruct Hr as (j & i & Hj & Hi & ->).
      apply (reg_row ls kx ky x0 y0 dx dy nx ny HX HY g (i0 + i) (j0 + j) R); lia.
    + intros i j Hi Hj. cbv zeta. rewrite grid_nth by assumption.
      destruct (reg_row ls kx ky x0 y0 dx dy nx ny HX HY g (i0 + i) (j0 + j) R) as (_ & A & B & _); [lia|lia|].
      rewrite (fld_col _ _ _ _ HX), (fld_col _ _ _ _ HY), A, B, !NQ_add. split; ring.
Qed.
