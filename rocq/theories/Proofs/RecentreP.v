From Coq Require Import String.
From Verif.Base Require Import QcX Res Np ListX Sums Bytes.
From Verif.Model Require Import Bins Average.
From Verif.Spec Require Import MapSpec AverageSpec.
Local Open Scope list_scope.

Lemma NQ_ZQ n : NQ n = ZQ (Z.of_nat n).
Proof. reflexivity. Qed.
Lemma positions_inc z d n a : 0 < d -> increasing (map (fun i => z + NQ i * d) (seq a n)).
Proof.
  intros Hd. revert a. induction n as [|n IH]; intros a; [constructor|]. cbn [seq map]. constructor; [|apply IH].
  intros y Hy. apply in_map_iff in Hy. destruct Hy as (i & <- & Hi). apply in_seq in Hi.
  assert (0 < (NQ i - NQ a) * d) as H. { apply qmult_pos; [|exact Hd]. rewrite !NQ_ZQ, <- ZQ_sub. rewrite <- ZQ_0. apply ZQ_lt. lia. }
  assert ((NQ i - NQ a) * d = NQ i * d - NQ a * d) as E by ring. rewrite E in H. generalize dependent (NQ i * d). generalize dependent (NQ a * d). intros. qlra'.
Qed.
Lemma unique_positions z d n l : 0 < d -> (forall v, In v l <-> exists i, (i < n)%nat /\ v = z + NQ i * d) -> unique l = map (fun i => z + NQ i * d) (seq 0 n).
Proof.
  intros Hd H. apply increasing_ext; [apply unique_inc|apply positions_inc; exact Hd|]. intros x. rewrite unique_in, H, in_map_iff. split.
  - intros (i & Hi & ->). exists i. split; [reflexivity|]. apply in_seq. lia.
  - intros (i & <- & Hi). apply in_seq in Hi. exists i. split; [lia|reflexivity].
Qed.
Lemma qdiff_positions z d n : forall a, qdiff (map (fun i => z + NQ i * d) (seq a n)) = repeat d (n - 1).
Proof.
  induction n as [|n IH]; intros a; [reflexivity|]. destruct n as [|n]; [reflexivity|]. change (seq a (S (S n))) with (a :: seq (S a) (S n)). specialize (IH (S a)).
  change (seq (S a) (S n)) with (S a :: seq (S (S a)) n) in *. cbn [map] in *. cbn [qdiff] in *. rewrite IH. replace (S (S n) - 1)%nat with (S (S n - 1)) by lia. cbn [repeat]. f_equal.
  rewrite !NQ_ZQ, Nat2Z.inj_succ. replace (Z.succ (Z.of_nat a)) with (Z.of_nat a + 1)%Z by lia. rewrite ZQ_add, ZQ_1. ring.
Qed.
Lemma qmean_repeat d n : (0 < n)%nat -> qmean (repeat d n) = d.
Proof. intros H. unfold qmean. rewrite qsum_repeat, repeat_length. field. apply NQ_nz. lia. Qed.

Lemma grid_add {A} a b m (f : nat -> nat -> A) : grid (a + b) m f = grid a m f ++ grid b m (fun i => f (a + i)%nat).
Proof.
  revert f. induction a as [|a IH]; intros f; [reflexivity|]. cbn [Nat.add]. rewrite !grid_S, IH, app_assoc. reflexivity.
Qed.
Lemma filter_all {A} (p : A -> bool) l : (forall x, In x l -> p x = true) -> filter p l = l.
Proof. induction l as [|x l IH]; intros H; [reflexivity|]. cbn [filter]. rewrite (H x (or_introl eq_refl)). f_equal. apply IH. intros; apply H; right; assumption. Qed.
Lemma filter_none {A} (p : A -> bool) l : (forall x, In x l -> p x = false) -> filter p l = [].
Proof. induction l as [|x l IH]; intros H; [reflexivity|]. cbn [filter]. rewrite (H x (or_introl eq_refl)). apply IH. intros; apply H; right; assumption. Qed.
Lemma filter_columns {A} (p : A -> bool) n m a w (f : nat -> nat -> A) : (a + w <= n)%nat ->
  (forall i j, (i < n)%nat -> (j < m)%nat -> p (f i j) = (Nat.leb a i && Nat.ltb i (a + w))%bool) ->
  filter p (grid n m f) = grid w m (fun i => f (a + i)%nat).
Proof.
  intros H HP. replace n with (a + (w + (n - a - w)))%nat by lia. rewrite !grid_add, !filter_app.
  rewrite (filter_none p (grid a m f)), (filter_none p (grid (n - a - w) m _)), (filter_all p (grid w m _)).
  - cbn [app]. apply app_nil_r.
  - intros x Hx. apply in_grid in Hx. destruct Hx as (i & j & Hi & Hj & ->). rewrite HP by lia. apply andb_true_intro. split; [apply Nat.leb_le|apply Nat.ltb_lt]; lia.
  - intros x Hx. apply in_grid in Hx. destruct Hx as (i & j & Hi & Hj & ->). rewrite HP by lia. apply Bool.andb_false_iff. right. apply Nat.ltb_ge. lia.
  - intros x Hx. apply in_grid in Hx. destruct Hx as (i & j & Hi & Hj & ->). rewrite HP by lia. apply Bool.andb_false_iff. left. apply Nat.leb_gt. lia.
Qed.
Lemma combine_grid {A B} n m (f : nat -> nat -> A) (g : nat -> nat -> B) : combine (grid n m f) (grid n m g) = grid n m (fun i j => (f i j, g i j)).
Proof.
  revert f g. induction n as [|n IH]; intros f g; [reflexivity|]. rewrite !grid_S.
  assert (forall (l : list nat) (u : nat -> A) (v : nat -> B) x y, combine (map u l ++ x) (map v l ++ y) = map (fun j => (u j, v j)) l ++ combine x y) as E.
  { induction l as [|j l IHl]; intros; [reflexivity|]. cbn [map app combine]. f_equal. apply IHl. }
  rewrite E, IH. reflexivity.
Qed.

Section Recentre.
Variables (nx ny : nat) (x0 y0 dx dy : Qc).
Hypotheses (Hnx : (2 <= nx)%nat) (Hny : (2 <= ny)%nat) (Hdx : 0 < dx) (Hdy : 0 < dy).
Lemma column_grid_eq m : column_grid m nx ny x0 y0 dx dy -> m = grid nx ny (fun i j => nth (i * ny + j) m bin0) /\
  map bX m = grid nx ny (fun i _ => x0 + NQ i * dx) /\ map bY m = grid nx ny (fun _ j => y0 + NQ j * dy).
Proof.
  intros [HL HP]. pose proof (grid_of_list m nx ny bin0 HL) as E. split; [exact E|]. split; rewrite E at 1; rewrite grid_map; apply grid_ext; intros i j Hi Hj; apply HP; assumption.
Qed.
Lemma grid_x_in n m v : (0 < m)%nat -> In v (grid n m (fun i _ => x0 + NQ i * dx)) <-> exists i, (i < n)%nat /\ v = x0 + NQ i * dx.
Proof.
  intros Hm. split.
  - intros H. apply in_grid in H. destruct H as (i & j & Hi & _ & ->). exists i. auto.
  - intros (i & Hi & ->). apply in_grid. exists i, 0%nat. auto.
Qed.
Lemma grid_y_in z d n m v : (0 < n)%nat -> In v (grid n m (fun _ j => z + NQ j * d)) <-> exists j, (j < m)%nat /\ v = z + NQ j * d.
Proof.
  intros Hn. split.
  - intros H. apply in_grid in H. destruct H as (i & j & _ & Hj & ->). exists j. auto.
  - intros (j & Hj & ->). apply in_grid. exists 0%nat, j. auto.
Qed.
Lemma min_columns n m (f : nat -> Qc) k : (0 < m)%nat -> (k < n)%nat -> (forall i, (i < n)%nat -> f k <= f i) -> list_min (grid n m (fun i _ => f i)) = Some (f k).
Proof.
  intros Hm Hk H. apply list_min_spec. split; [apply in_grid; exists k, 0%nat; auto|]. intros y Hy. apply in_grid in Hy. destruct Hy as (i & j & Hi & _ & ->). apply H. exact Hi.
Qed.
Lemma max_columns n m (f : nat -> Qc) k : (0 < m)%nat -> (k < n)%nat -> (forall i, (i < n)%nat -> f i <= f k) -> list_max (grid n m (fun i _ => f i)) = Some (f k).
Proof.
  intros Hm Hk H. apply list_max_spec. split; [apply in_grid; exists k, 0%nat; auto|]. intros y Hy. apply in_grid in Hy. destruct Hy as (i & j & Hi & _ & ->). apply H. exact Hi.
Qed.
Lemma shift_le a b : (a <= b)%Z -> x0 + ZQ a * dx <= x0 + ZQ b * dx.
Proof.
  intros H. assert (0 <= (ZQ b - ZQ a) * dx) as K. { apply qmult_nonneg; [|apply qc_lt_le; exact Hdx]. rewrite <- ZQ_sub, <- ZQ_0. apply ZQ_le. lia. }
  assert ((ZQ b - ZQ a) * dx = ZQ b * dx - ZQ a * dx) as E by ring. rewrite E in K. generalize dependent (ZQ b * dx). generalize dependent (ZQ a * dx). intros. qlra'.
Qed.
Lemma shift_lt a b : (a < b)%Z -> x0 + ZQ a * dx < x0 + ZQ b * dx.
Proof.
  intros H. assert (0 < (ZQ b - ZQ a) * dx) as K. { apply qmult_pos; [|exact Hdx]. rewrite <- ZQ_sub, <- ZQ_0. apply ZQ_lt. lia. }
  assert ((ZQ b - ZQ a) * dx = ZQ b * dx - ZQ a * dx) as E by ring. rewrite E in K. generalize dependent (ZQ b * dx). generalize dependent (ZQ a * dx). intros. qlra'.
Qed.
Lemma shift_qle a b : qle (x0 + ZQ a * dx) (x0 + ZQ b * dx) = (a <=? b)%Z.
Proof. destruct (Z.leb_spec a b); [apply qle_true, shift_le; assumption|apply qle_false, shift_lt; assumption]. Qed.
Definition cnum (r : Qc) : Z := qround ((r - x0) / dx).
Lemma spacing_x m : column_grid m nx ny x0 y0 dx dy -> list_min (map bX m) = Some x0 /\ qdiff (unique (map bX m)) = repeat dx (nx - 1).
Proof.
  intros H. destruct (column_grid_eq m H) as (_ & EX & _). rewrite EX. split.
  - pose proof (min_columns nx ny (fun i => x0 + NQ i * dx) 0 ltac:(lia) ltac:(lia)) as K. cbn beta in K. rewrite K; [apply f_equal; rewrite NQ_0; ring|].
    intros i _. rewrite !NQ_ZQ. apply shift_le. lia.
  - rewrite (unique_positions x0 dx nx); [apply qdiff_positions|exact Hdx|]. intros v. apply grid_x_in. lia.
Qed.
Lemma recentred_one m r : column_grid m nx ny x0 y0 dx dy ->
  recentred_xs (m, Some r) = Ok (Some (grid nx ny (fun i _ => x0 + ZQ (Z.of_nat i - cnum r) * dx), dx)).
Proof.
  intros H. destruct (column_grid_eq m H) as (_ & EX & _). destruct (spacing_x m H) as [E1 E2]. unfold recentred_xs. cbn [fst snd]. rewrite E1. cbn [of_option rbind]. rewrite E2.
  destruct (nx - 1)%nat as [|k] eqn:E; [lia|]. cbn [repeat]. change (dx :: repeat dx k) with (repeat dx (S k)). rewrite qmean_repeat by lia. cbv zeta.
  do 2 apply f_equal. f_equal. rewrite EX, grid_map. apply grid_ext. intros i j _ _. assert (dx <> 0) as Hn by (apply qpos_nz; exact Hdx).
  replace ((x0 + NQ i * dx - x0) / dx) with (NQ i) by (field; exact Hn). rewrite NQ_ZQ, qround_ZQ. fold (cnum r). rewrite ZQ_sub. ring.
Qed.

(** The bins of a recentred map: columns a .. a + w - 1 of map [m], where column [c] is moved to x0. *)
Definition moved (m : list bin) (c lo : Z) (w : nat) : list bin :=
  grid w ny (fun i j => with_x (nth ((Z.to_nat (c - lo) + i) * ny + j) m bin0) (x0 + ZQ (Z.of_nat i - lo) * dx)).
Lemma subset_moved m r lo hi : column_grid m nx ny x0 y0 dx dy -> (lo <= cnum r <= hi)%Z ->
  subset (x0 + ZQ (- lo) * dx) (x0 + ZQ (Z.of_nat nx - 1 - hi) * dx) (grid nx ny (fun i _ => x0 + ZQ (Z.of_nat i - cnum r) * dx)) m =
  moved m (cnum r) lo (Z.to_nat (Z.of_nat nx - (hi - lo))).
Proof.
  intros H Hc. destruct (column_grid_eq m H) as (EM & _ & _). set (c := cnum r) in *. unfold subset. rewrite EM at 1. rewrite combine_grid.
  destruct (Z_lt_le_dec (hi - lo) (Z.of_nat nx)) as [Hw|Hw].
  - rewrite (filter_columns _ nx ny (Z.to_nat (c - lo)) (Z.to_nat (Z.of_nat nx - (hi - lo)))).
    + rewrite grid_map. unfold moved. apply grid_ext. intros i j Hi Hj. cbn [fst snd]. f_equal. f_equal. f_equal. f_equal. lia.
    + lia.
    + intros i j Hi Hj. cbn [fst snd]. rewrite !shift_qle. f_equal.
      * destruct (Z.leb_spec (- lo) (Z.of_nat i - c)); destruct (Nat.leb_spec (Z.to_nat (c - lo)) i); try reflexivity; lia.
      * destruct (Z.leb_spec (Z.of_nat i - c) (Z.of_nat nx - 1 - hi)); destruct (Nat.ltb_spec i (Z.to_nat (c - lo) + Z.to_nat (Z.of_nat nx - (hi - lo)))); try reflexivity; lia.
  - replace (Z.to_nat (Z.of_nat nx - (hi - lo))) with 0%nat by lia. rewrite filter_none; [reflexivity|].
    intros x Hx. apply in_grid in Hx. destruct Hx as (i & j & Hi & Hj & ->). cbn [fst snd]. rewrite !shift_qle.
    destruct (Z.leb_spec (- lo) (Z.of_nat i - c)); [|reflexivity]. apply Z.leb_gt. lia.
Qed.
Lemma moved_grid m c lo w : column_grid m nx ny x0 y0 dx dy -> (lo <= c)%Z -> (Z.to_nat (c - lo) + w <= nx)%nat ->
  column_grid (moved m c lo w) w ny (x0 - ZQ lo * dx) y0 dx dy /\
  forall i j, (i < w)%nat -> (j < ny)%nat -> same_fields (nth (i * ny + j) (moved m c lo w) bin0) (nth ((Z.to_nat (c - lo) + i) * ny + j) m bin0).
Proof.
  intros [HL HP] Hc Hw. split.
  - split; [apply grid_length|]. intros i j Hi Hj. unfold moved. rewrite grid_nth by assumption. cbv zeta. cbn [with_x bX bY]. split.
    + rewrite ZQ_sub, <- NQ_ZQ. ring.
    + apply (HP (Z.to_nat (c - lo) + i)%nat j); lia.
  - intros i j Hi Hj. unfold moved. rewrite grid_nth by assumption. repeat split.
Qed.
Lemma rmapM_map_ok {A B C} (f : B -> res C) (g : A -> B) (h : A -> C) l : (forall a, In a l -> f (g a) = Ok (h a)) -> rmapM f (map g l) = Ok (map h l).
Proof. induction l as [|a l IH]; intros H; [reflexivity|]. cbn [map rmapM]. rewrite (H a (or_introl eq_refl)). cbn [rbind]. rewrite IH by (intros; apply H; right; assumption). reflexivity. Qed.
Lemma combine_values (ps : list (list bin * Qc)) : combine (map fst ps) (map (fun p => Some (snd p)) ps) = map (fun p => (fst p, Some (snd p))) ps.
Proof. induction ps as [|[m r] ps IH]; [reflexivity|]. cbn [map combine fst snd]. f_equal. exact IH. Qed.
Lemma last_map {A B} (f : A -> B) l d d' : l <> [] -> last (map f l) d = f (last l d').
Proof.
  intros H. destruct (exists_last H) as (l' & x & ->). rewrite map_app. cbn [map]. rewrite !last_last. reflexivity.
Qed.
Lemma last_in {A} (l : list A) d : l <> [] -> In (last l d) l.
Proof. intros H. destruct (exists_last H) as (l' & x & ->). rewrite last_last. apply in_or_app. right. left. reflexivity. Qed.
Lemma recentre_ok ps lo hi : ps <> [] -> (forall p, In p ps -> column_grid (fst p) nx ny x0 y0 dx dy) ->
  is_min (map (fun p => cnum (snd p)) ps) lo -> is_max (map (fun p => cnum (snd p)) ps) hi ->
  recenter_maps (map fst ps) (map (fun p => Some (snd p)) ps) =
    if (hi - lo <? Z.of_nat nx)%Z then
      let w := Z.to_nat (Z.of_nat nx - (hi - lo)) in
      Ok (map (fun p => moved (fst p) (cnum (snd p)) lo w) ps, mkWinfo (Z.of_nat w, Z.of_nat ny) (dx, dy) (Some (x0 - ZQ lo * dx, y0)))
    else Err ValueErr.
Proof.
  intros Hne HG [Hlo1 Hlo2] [Hhi1 Hhi2].
  set (C := fun p : list bin * Qc => cnum (snd p)) in *.
  assert (forall p, In p ps -> (lo <= C p <= hi)%Z) as HC by (intros p Hp; split; [apply Hlo2|apply Hhi2]; apply in_map; exact Hp).
  unfold recenter_maps. rewrite !map_length, Nat.eqb_refl. cbn [negb].
  destruct ps as [|p0 ps0] eqn:EP; [congruence|]. cbn [map]. rewrite <- EP in *.
  change (fst p0 :: map fst ps0) with (map fst (p0 :: ps0)). change (Some (snd p0) :: map (fun p : list bin * Qc => Some (snd p)) ps0) with (map (fun p : list bin * Qc => Some (snd p)) (p0 :: ps0)). rewrite <- EP.
  assert (forallb (fun m => Nat.eqb (length m) (length (fst p0))) (map fst ps) = true) as ->.
  { apply forallb_forall. intros m Hm. apply in_map_iff in Hm. destruct Hm as (p & <- & Hp). apply Nat.eqb_eq. rewrite (proj1 (HG p Hp)). symmetry. apply (HG p0). rewrite EP. left. reflexivity. }
  cbn [negb]. rewrite combine_values.
  rewrite (rmapM_map_ok recentred_xs _ (fun p => Some (grid nx ny (fun i _ => x0 + ZQ (Z.of_nat i - C p) * dx), dx))); [|intros p Hp; apply recentred_one; apply HG; exact Hp].
  cbn [rbind]. unfold all_some. rewrite (rmapM_map_ok _ _ (fun p => (grid nx ny (fun i _ => x0 + ZQ (Z.of_nat i - C p) * dx), dx))) by reflexivity. cbn [rbind].
  rewrite (rmapM_map_ok _ _ (fun p => x0 + ZQ (- C p) * dx)).
  2:{ intros p Hp. cbn [fst]. rewrite (min_columns nx ny (fun i => x0 + ZQ (Z.of_nat i - C p) * dx) 0); [reflexivity|lia|lia|]. intros i _. apply shift_le; lia. }
  cbn [rbind]. rewrite (rmapM_map_ok _ _ (fun p => x0 + ZQ (Z.of_nat nx - 1 - C p) * dx)).
  2:{ intros p Hp. cbn [fst]. rewrite (max_columns nx ny (fun i => x0 + ZQ (Z.of_nat i - C p) * dx) (nx - 1)); [|lia|lia|intros i Hi; apply shift_le; lia].
      cbn [of_option]. do 4 f_equal. lia. }
  cbn [rbind].
  assert (list_max (map (fun p => x0 + ZQ (- C p) * dx) ps) = Some (x0 + ZQ (- lo) * dx)) as ->.
  { apply list_max_spec. apply in_map_iff in Hlo1. destruct Hlo1 as (p & Ep & Hp). split; [apply in_map_iff; exists p; split; [rewrite Ep; reflexivity|exact Hp]|].
    intros y Hy. apply in_map_iff in Hy. destruct Hy as (q & <- & Hq). apply shift_le. specialize (HC q Hq). lia. }
  cbn [of_option rbind].
  assert (list_min (map (fun p => x0 + ZQ (Z.of_nat nx - 1 - C p) * dx) ps) = Some (x0 + ZQ (Z.of_nat nx - 1 - hi) * dx)) as ->.
  { apply list_min_spec. apply in_map_iff in Hhi1. destruct Hhi1 as (p & Ep & Hp). split; [apply in_map_iff; exists p; split; [rewrite Ep; reflexivity|exact Hp]|].
    intros y Hy. apply in_map_iff in Hy. destruct Hy as (q & <- & Hq). apply shift_le. specialize (HC q Hq). lia. }
  cbn [of_option rbind]. cbv zeta.
  set (w := Z.to_nat (Z.of_nat nx - (hi - lo))).
  assert (map (fun p => subset (x0 + ZQ (- lo) * dx) (x0 + ZQ (Z.of_nat nx - 1 - hi) * dx) (fst (fst p)) (snd p))
     (combine (map (fun p => (grid nx ny (fun i (_ : nat) => x0 + ZQ (Z.of_nat i - C p) * dx), dx)) ps) (map fst ps)) = map (fun p => moved (fst p) (C p) lo w) ps) as EO.
  { clear -HG HC Hdx Hnx Hny Hdy. induction ps as [|p ps IH]; [reflexivity|]. cbn [map combine fst snd]. f_equal; [apply (subset_moved (fst p) (snd p) lo hi); [apply HG|apply HC]; left; reflexivity|].
    apply IH; [intros; apply HG; right; assumption|intros; apply HC; right; assumption]. }
  rewrite EO. clear EO. rewrite (last_map _ ps [] p0 Hne). rewrite (last_map _ ps ([], 0) p0 Hne). cbn [snd].
  set (pl := last ps p0). assert (In pl ps) as Hpl by (apply last_in; exact Hne). pose proof (HC pl Hpl) as Hcl. pose proof (HG pl Hpl) as Hgl.
  destruct (Z.ltb_spec (hi - lo) (Z.of_nat nx)) as [Hw|Hw].
  - destruct (moved_grid (fst pl) (C pl) lo w Hgl) as [[ML MP] _]; [lia|lia|].
    assert (map bY (moved (fst pl) (C pl) lo w) = grid w ny (fun _ j => y0 + NQ j * dy)) as EY.
    { rewrite (grid_of_list _ w ny bin0 ML). rewrite grid_map. apply grid_ext. intros i j Hi Hj. apply MP; assumption. }
    rewrite EY. assert (forall v, In v (grid w ny (fun _ j => y0 + NQ j * dy)) <-> exists j, (j < ny)%nat /\ v = y0 + NQ j * dy) as HI by (intros v; apply grid_y_in; lia).
    assert (list_min (grid w ny (fun _ j => y0 + NQ j * dy)) = Some y0) as ->.
    { apply list_min_spec. split; [apply HI; exists 0%nat; split; [lia|rewrite NQ_0; ring]|]. intros v Hv. apply HI in Hv. destruct Hv as (j & _ & ->).
      assert (0 <= NQ j * dy) by (apply qmult_nonneg; [apply NQ_nonneg|apply qc_lt_le; exact Hdy]). generalize dependent (NQ j * dy). intros. qlra'. }
    cbn [of_option rbind]. rewrite (unique_positions y0 dy ny) by (try exact Hdy; exact HI). rewrite qdiff_positions. destruct (ny - 1)%nat as [|k] eqn:Ek; [lia|]. cbn [repeat]. change (dy :: repeat dy k) with (repeat dy (S k)). rewrite qmean_repeat by lia.
    assert ((x0 + ZQ (Z.of_nat nx - 1 - hi) * dx - (x0 + ZQ (- lo) * dx)) / dx = NQ (w - 1)) as ->.
    { transitivity (ZQ (Z.of_nat nx - 1 - hi) - ZQ (- lo)); [field; apply qpos_nz; exact Hdx|]. rewrite <- ZQ_sub, NQ_ZQ. f_equal. lia. }
    rewrite qtrunc_nonneg by apply NQ_nonneg. rewrite NQ_ZQ, qfloor_ZQ, ML. apply f_equal. apply f_equal2; [rewrite EP; reflexivity|]. apply (f_equal3 mkWinfo); [apply f_equal2|reflexivity|].
    + lia.
    + replace (Z.of_nat (w - 1) + 1)%Z with (Z.of_nat w) by lia. rewrite Nat2Z.inj_mul. rewrite Z.mul_comm. apply Z.div_mul. lia.
    + do 2 f_equal. rewrite ZQ_opp. ring.
  - replace w with 0%nat by lia. cbn [moved grid map seq flat_map list_min of_option rbind]. reflexivity.
Qed.
Lemma cnum_nearest r : nearest_column x0 dx (Some r) (cnum r).
Proof.
  exists r. split; [reflexivity|]. intros k.
  assert (forall z, qabs (r - (x0 + ZQ z * dx)) = qabs ((r - x0) / dx - ZQ z) * dx) as E.
  { intros z. assert (r - (x0 + ZQ z * dx) = ((r - x0) / dx - ZQ z) * dx) as -> by (field; apply qpos_nz; exact Hdx).
    generalize ((r - x0) / dx - ZQ z). intros t. unfold qabs. destruct (qle 0 t) eqn:E1; destruct (qle 0 (t * dx)) eqn:E2; rewrite ?qle_true, ?qle_false in *; try ring.
    - exfalso. pose proof (qmult_nonneg _ _ E1 (qc_lt_le _ _ Hdx)). generalize dependent (t * dx). intros. qlra.
    - exfalso. assert (0 < - t) as H by qlra'. pose proof (qmult_pos _ _ H Hdx) as K. assert (- t * dx = - (t * dx)) as K2 by ring. rewrite K2 in K. generalize dependent (t * dx). intros. qlra. }
  rewrite !E. unfold cnum. set (t := (r - x0) / dx). apply Qcmult_le_compat_r; [|apply qc_lt_le; exact Hdx].
  pose proof (qround_near t) as S. destruct (Z.eq_dec k (qround t)) as [->|N]; [apply Qcle_refl|].
  clearbody t. generalize dependent (qround t). intros rt S N. assert (1 <= qabs (ZQ k - ZQ rt)) as K.
  { clear -N. rewrite <- ZQ_sub. unfold qabs. destruct (qle 0 _) eqn:E0; [apply qle_true in E0; rewrite <- ZQ_0 in E0; rewrite ZQ_le in E0; rewrite <- ZQ_1; apply ZQ_le; lia|].
    apply qle_false in E0. rewrite <- ZQ_0 in E0. rewrite ZQ_lt in E0. rewrite <- ZQ_opp, <- ZQ_1. apply ZQ_le. lia. }
  revert S K. generalize (ZQ k) (ZQ rt). clear. intros a b S K. unfold qabs in *. assert (Q2Qc (1 # 2) + Q2Qc (1 # 2) = 1) as Hh by (apply Qc_is_canon; reflexivity). revert S Hh. generalize (Q2Qc (1 # 2)). intros h S Hh.
  destruct (qle 0 (t - b)) eqn:E1; destruct (qle 0 (t - a)) eqn:E2; destruct (qle 0 (a - b)) eqn:E3; rewrite ?qle_true, ?qle_false in *; qlra'.
Qed.
End Recentre.
