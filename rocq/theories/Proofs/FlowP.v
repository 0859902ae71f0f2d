From Coq Require Import String Permutation.
From Verif.Base Require Import QcX Res Np Sort ListX.
From Verif.Model Require Import Flow.
From Verif.Spec Require Import FlowSpec.
Local Open Scope list_scope.

Lemma selects_filter {A} (P : A -> Prop) p l :
  (forall x, In x l -> (p x = true <-> P x)) -> selects P l (filter p l).
Proof.
  induction l as [|x l IH]; simpl; intros H; [constructor|].
  destruct (p x) eqn:E.
  - constructor; auto. apply H; auto.
  - constructor; auto. rewrite <- H by auto. congruence.
Qed.
Lemma selects_fun {A} (P : A -> Prop) l m : selects P l m -> forall m', selects P l m' -> m = m'.
Proof.
  induction 1; inversion 1; subst; auto; try contradiction. f_equal; auto.
Qed.
Lemma selects_selects {A} (P Q : A -> Prop) l m : selects P l m -> forall k, selects Q m k ->
  selects (fun x => P x /\ Q x) l k.
Proof.
  induction 1; intros k S; try (inversion S; subst; constructor; auto; tauto).
Qed.
Lemma selects_iff {A} (P Q : A -> Prop) l m : (forall x, In x l -> P x <-> Q x) -> selects P l m -> selects Q l m.
Proof.
  intros H S. induction S; simpl in *; constructor; auto; try apply H; auto.
  intro q. apply H in q; auto.
Qed.
Lemma selects_all {A} (P : A -> Prop) l : (forall x, In x l -> P x) -> selects P l l.
Proof. induction l; simpl; intros; constructor; auto. Qed.
Lemma selects_in {A} (P : A -> Prop) l m : selects P l m -> forall x, In x m <-> In x l /\ P x.
Proof.
  induction 1; simpl; intros y; [tauto| |]; rewrite IHselects; intuition; subst; auto; contradiction.
Qed.

Lemma index_of_spec l ls k : index_of l ls = Some k -> nth_error ls k = Some l.
Proof.
  revert k; induction ls as [|l' ls IH]; simpl; intros k; [discriminate|].
  destruct (String.eqb_spec l l') as [->|]; [intros [= <-]; reflexivity|].
  destruct (index_of l ls); simpl; [intros [= <-]; simpl; auto | discriminate].
Qed.
Lemma index_of_some l ls : In l ls -> exists k, index_of l ls = Some k.
Proof.
  induction ls as [|l' ls IH]; simpl; [tauto|]. intros H.
  destruct (String.eqb_spec l l'); [eauto|].
  destruct H as [->|H]; [congruence|]. destruct (IH H) as [k ->]. simpl; eauto.
Qed.
Lemma index_of_none l ls : ~ In l ls -> index_of l ls = None.
Proof.
  destruct (index_of l ls) eqn:E; auto. apply index_of_spec, nth_error_In in E. tauto.
Qed.
Lemma has_col ls l k r v : NoDup ls -> length r = length ls -> index_of l ls = Some k ->
  (has ls l r v <-> v = col k r).
Proof.
  intros ND L I. apply index_of_spec in I. unfold has, col.
  assert (k < length ls)%nat by (apply nth_error_Some; congruence).
  split.
  - intros (j & Hj & Hv). assert (j = k) as ->.
    { eapply NoDup_nth_error; eauto. apply nth_error_Some; congruence. congruence. }
    symmetry. now apply nth_error_nth.
  - intros ->. exists k. split; auto. apply nth_error_nth'. lia.
Qed.

Lemma within_spec lo hi x : within lo hi x = true <-> inside lo hi x.
Proof.
  unfold within, inside. rewrite andb_true_iff.
  destruct lo as [a|], hi as [b|]; rewrite ?qle_true; intuition; try discriminate;
   try (match goal with H : Some _ = Some _ |- _ => inversion H; subst; auto end); auto.
Qed.

Lemma field_inside_col ls l k lo hi r : NoDup ls -> length r = length ls -> index_of l ls = Some k ->
  (within lo hi (col k r) = true <-> field_inside ls l lo hi r).
Proof.
  intros ND L I. unfold field_inside. rewrite within_spec.
  split.
  - intros H. exists (col k r). split; auto. apply (has_col ls l k); auto.
  - intros (v & Hv & H). apply (has_col ls l k) in Hv; auto. now subst.
Qed.

Lemma lims_exact l lo hi f g : wf (data f) -> lims l lo hi f = Ok g ->
  labels (data g) = labels (data f) /\
  selects (field_inside (labels (data f)) l lo hi) (rows (data f)) (rows (data g)) /\
  info g = mkFinfo None None (f_spacing (info f)) (Some (Z.of_nat (length (rows (data g))))).
Proof.
  intros [ND L]. unfold lims. destruct (index_of l _) eqn:I; [|discriminate].
  intros [= <-]; simpl. repeat split; auto.
  apply selects_filter. intros r Hr. apply field_inside_col; auto.
Qed.
Lemma lims_defined l lo hi f :
  (In l (labels (data f)) -> exists g, lims l lo hi f = Ok g) /\
  (~ In l (labels (data f)) -> lims l lo hi f = Err KeyErr).
Proof.
  unfold lims; split; intro H.
  - destruct (index_of_some _ _ H) as [k ->]. eauto.
  - rewrite index_of_none; auto.
Qed.
Lemma lims_wf l lo hi f g : wf (data f) -> lims l lo hi f = Ok g -> wf (data g).
Proof.
  intros W H. destruct (lims_exact _ _ _ _ _ W H) as (L & S & _). destruct W as [ND W].
  split; rewrite L; auto. intros r Hr. apply (selects_in _ _ _ S) in Hr. apply W. tauto.
Qed.

(** Two limits in a row select the intersection. *)
Lemma lims_lims l lo hi l' lo' hi' f g k : wf (data f) -> lims l lo hi f = Ok g -> lims l' lo' hi' g = Ok k ->
  selects (fun r => field_inside (labels (data f)) l lo hi r /\ field_inside (labels (data f)) l' lo' hi' r)
    (rows (data f)) (rows (data k)).
Proof.
  intros W H H'. pose proof (lims_wf _ _ _ _ _ W H) as W'.
  destruct (lims_exact _ _ _ _ _ W H) as (L & S & _).
  destruct (lims_exact _ _ _ _ _ W' H') as (L' & S' & _). rewrite L in S'.
  eapply selects_selects; eauto.
Qed.
Lemma flow_eq f g : data f = data g -> info f = info g -> f = g.
Proof. destruct f, g; simpl; intros; subst; auto. Qed.
Lemma table_eq f g : labels f = labels g -> rows f = rows g -> f = g.
Proof. destruct f, g; simpl; intros; subst; auto. Qed.
Lemma lims_commute l lo hi l' lo' hi' f g k g' k' : wf (data f) ->
  lims l lo hi f = Ok g -> lims l' lo' hi' g = Ok k ->
  lims l' lo' hi' f = Ok g' -> lims l lo hi g' = Ok k' -> k = k'.
Proof.
  intros W H1 H2 H3 H4.
  pose proof (lims_lims _ _ _ _ _ _ _ _ _ W H1 H2) as S.
  pose proof (lims_lims _ _ _ _ _ _ _ _ _ W H3 H4) as S'.
  assert (rows (data k) = rows (data k')) as E.
  { eapply selects_fun; eauto. eapply selects_iff; [|exact S']. intros; cbv beta; tauto. }
  pose proof (lims_wf _ _ _ _ _ W H1) as W1. pose proof (lims_wf _ _ _ _ _ W H3) as W3.
  destruct (lims_exact _ _ _ _ _ W H1) as (L1 & _ & I1).
  destruct (lims_exact _ _ _ _ _ W1 H2) as (L2 & _ & I2).
  destruct (lims_exact _ _ _ _ _ W H3) as (L3 & _ & I3).
  destruct (lims_exact _ _ _ _ _ W3 H4) as (L4 & _ & I4).
  apply flow_eq.
  - apply table_eq; congruence.
  - rewrite I2, I4, I1, I3, E. reflexivity.
Qed.
Lemma lims_idempotent l lo hi f g : wf (data f) -> lims l lo hi f = Ok g -> lims l lo hi g = Ok g.
Proof.
  intros W H. pose proof (lims_wf _ _ _ _ _ W H) as W'.
  destruct (lims_exact _ _ _ _ _ W H) as (L & S & I).
  assert (In l (labels (data f))) as Hl.
  { destruct (in_dec String.string_dec l (labels (data f))); auto.
    rewrite (proj2 (lims_defined l lo hi f)) in H; auto; discriminate. }
  destruct (proj1 (lims_defined l lo hi g)) as [k Hk]; [congruence|].
  rewrite Hk. f_equal.
  destruct (lims_exact _ _ _ _ _ W' Hk) as (L' & S' & I').
  assert (rows (data k) = rows (data g)) as E.
  { eapply selects_fun; eauto. apply selects_all. intros r Hr. rewrite L.
    apply (selects_in _ _ _ S) in Hr. tauto. }
  apply flow_eq; [apply table_eq; congruence|]. rewrite I', I, E. reflexivity.
Qed.

(** ** cut *)
Definition orelse (a : option Qc) (b : Qc) : Qc := match a with Some x => x | None => b end.
Lemma cut_inv xlim ylim f g ox oy nx ny dx dy :
  f_origin (info f) = Some (ox, oy) -> f_shape (info f) = Some (nx, ny) -> f_spacing (info f) = Some (dx, dy) ->
  cut xlim ylim f = Ok g ->
  exists f1 f2 xs ys,
  let xmin := match fst xlim with Some x => x | None => ox end in
  let xmax := match snd xlim with Some x => x | None => ox + ZQ nx * dx end in
  let ymin := match fst ylim with Some x => x | None => oy end in
  let ymax := match snd ylim with Some x => x | None => oy + ZQ ny * dy end in
  lims "X" (Some xmin) (Some xmax) f = Ok f1 /\ lims "Y" (Some ymin) (Some ymax) f1 = Ok f2 /\
  get_data "X" (data f2) = Some xs /\ get_data "Y" (data f2) = Some ys /\
  data g = data f2 /\
  info g = mkFinfo (Some (Z.of_nat (length (unique xs)), Z.of_nat (length (unique ys)))) (Some (xmin, ymin)) (Some (dx, dy))
    (Some (Z.of_nat (length (unique xs)) * Z.of_nat (length (unique ys)))%Z).
Proof.
  intros Ho Hs Hp. unfold cut. rewrite Ho, Hs, Hp. cbv zeta. unfold default.
  destruct (lims "X" _ _ f) as [f1|] eqn:E1; simpl rbind; [|discriminate].
  destruct (lims "Y" _ _ f1) as [f2|] eqn:E2; simpl rbind; [|discriminate].
  destruct (get_data "X" (data f2)) as [xs|] eqn:Ex; [|discriminate].
  destruct (get_data "Y" (data f2)) as [ys|] eqn:Ey; [|discriminate].
  intros [= <-]. exists f1, f2, xs, ys. cbv zeta. repeat split; auto.
Qed.
Lemma get_data_spec l t c : wf t -> get_data l t = Some c -> forall v, In v c <-> exists r, In r (rows t) /\ has (labels t) l r v.
Proof.
  intros [ND L]. unfold get_data. destruct (index_of l (labels t)) eqn:I; [|discriminate].
  intros [= <-] v. rewrite in_map_iff. split.
  - intros (r & <- & Hr). exists r; split; auto. apply (has_col _ _ n); auto.
  - intros (r & Hr & H). exists r; split; auto. symmetry. apply (has_col (labels t) l n); auto.
Qed.
Lemma get_data_exists l t : In l (labels t) -> exists c, get_data l t = Some c.
Proof. intro H. unfold get_data. destruct (index_of_some _ _ H) as [k ->]; eauto. Qed.
Lemma cut_exact xlim ylim f g ox oy nx ny dx dy : wf (data f) ->
  f_origin (info f) = Some (ox, oy) -> f_shape (info f) = Some (nx, ny) -> f_spacing (info f) = Some (dx, dy) ->
  cut xlim ylim f = Ok g ->
  let xmin := match fst xlim with Some x => x | None => ox end in
  let xmax := match snd xlim with Some x => x | None => ox + ZQ nx * dx end in
  let ymin := match fst ylim with Some x => x | None => oy end in
  let ymax := match snd ylim with Some x => x | None => oy + ZQ ny * dy end in
  labels (data g) = labels (data f) /\
  selects (fun r => field_inside (labels (data f)) "X" (Some xmin) (Some xmax) r /\
                    field_inside (labels (data f)) "Y" (Some ymin) (Some ymax) r) (rows (data f)) (rows (data g)) /\
  exists ux uy,
    NoDup ux /\ (forall v, In v ux <-> exists r, In r (rows (data g)) /\ has (labels (data g)) "X" r v) /\
    NoDup uy /\ (forall v, In v uy <-> exists r, In r (rows (data g)) /\ has (labels (data g)) "Y" r v) /\
    info g = mkFinfo (Some (Z.of_nat (length ux), Z.of_nat (length uy))) (Some (xmin, ymin)) (Some (dx, dy))
                     (Some (Z.of_nat (length ux) * Z.of_nat (length uy))%Z).
Proof.
  intros W Ho Hs Hp HC. destruct (cut_inv _ _ _ _ _ _ _ _ _ _ Ho Hs Hp HC) as (f1 & f2 & xs & ys & H1 & H2 & Gx & Gy & D & I).
  cbv zeta. pose proof (lims_wf _ _ _ _ _ W H1) as W1. pose proof (lims_wf _ _ _ _ _ W1 H2) as W2.
  destruct (lims_exact _ _ _ _ _ W H1) as (L1 & _ & _). destruct (lims_exact _ _ _ _ _ W1 H2) as (L2 & _ & _).
  rewrite D. split; [congruence|]. split.
  - exact (lims_lims _ _ _ _ _ _ _ _ _ W H1 H2).
  - exists (unique xs), (unique ys).
    split; [apply increasing_nodup, unique_inc|]. split.
    { intro v. rewrite unique_in. apply get_data_spec; auto. }
    split; [apply increasing_nodup, unique_inc|]. split; auto.
    intro v. rewrite unique_in. apply get_data_spec; auto.
Qed.
Lemma cut_defined xlim ylim f :
  match f_origin (info f), f_shape (info f), f_spacing (info f) with
  | Some _, Some _, Some _ =>
     if (existsb (String.eqb "X") (labels (data f)) && existsb (String.eqb "Y") (labels (data f)))%bool
     then exists g, cut xlim ylim f = Ok g else cut xlim ylim f = Err KeyErr
  | _, _, _ => cut xlim ylim f = Err TypeErr
  end.
Proof.
  unfold cut.
  destruct (f_origin (info f)) as [[ox oy]|]; auto.
  destruct (f_shape (info f)) as [[nx ny]|]; auto.
  destruct (f_spacing (info f)) as [[dx dy]|]; auto.
  assert (forall l, existsb (String.eqb l) (labels (data f)) = true <-> In l (labels (data f))) as X.
  { intro l. rewrite existsb_exists. split. intros (? & H & E). apply String.eqb_eq in E; subst; auto.
    intro; exists l; split; auto. apply String.eqb_refl. }
  cbv zeta.
  set (lx := default (fst xlim) ox). set (hx := default (snd xlim) _).
  set (ly := default (fst ylim) oy). set (hy := default (snd ylim) _).
  destruct (existsb (String.eqb "X") (labels (data f))) eqn:EX; cbn [andb].
  - apply X in EX. destruct (proj1 (lims_defined "X" (Some lx) (Some hx) f) EX) as [f1 H1]. rewrite H1; simpl rbind.
    assert (labels (data f1) = labels (data f)) as L1.
    { revert H1; unfold lims. destruct (index_of _ _); [|discriminate]. intros [= <-]; reflexivity. }
    destruct (existsb (String.eqb "Y") (labels (data f))) eqn:EY.
    + apply X in EY. destruct (proj1 (lims_defined "Y" (Some ly) (Some hy) f1)) as [f2 H2]; [congruence|].
      rewrite H2; simpl rbind.
      assert (labels (data f2) = labels (data f1)) as L2.
      { revert H2; unfold lims. destruct (index_of _ (labels (data f1))); [|discriminate]. intros [= <-]; reflexivity. }
      destruct (get_data_exists "X" (data f2)) as [? ->]; [congruence|].
      destruct (get_data_exists "Y" (data f2)) as [? ->]; [congruence|]. eauto.
    + rewrite (proj2 (lims_defined "Y" _ _ f1)); auto. rewrite L1. intro H. apply X in H. congruence.
  - rewrite (proj2 (lims_defined "X" _ _ f)); auto. intro H. apply X in H. congruence.
Qed.
(* n distinct positions *)
Lemma grid_count (o d : Qc) (n : Z) u : 0 < d -> NoDup u ->
  (forall v, In v u <-> exists i, (0 <= i < n)%Z /\ v = o + ZQ i * d) -> (0 <= n)%Z -> Z.of_nat (length u) = n.
Proof.
  intros Hd ND H Hn.
  set (m := map (fun i => o + ZQ (Z.of_nat i) * d) (seq 0 (Z.to_nat n))).
  assert (NoDup m) as NDm.
  { apply FinFun.Injective_map_NoDup; [|apply seq_NoDup]. intros i j E.
    assert (ZQ (Z.of_nat i) = ZQ (Z.of_nat j)) as E'.
    { assert (ZQ (Z.of_nat i) * d = ZQ (Z.of_nat j) * d) as E2 by qlra'.
      apply (f_equal (fun z => z / d)) in E2. unfold Qcdiv in E2.
      rewrite <- !Qcmult_assoc, Qcmult_inv_r in E2 by (apply qpos_nz; auto).
      rewrite !Qcmult_1_r in E2. exact E2. }
    apply ZQ_inj in E'. lia. }
  assert (length u = length m) as ->.
  { apply Permutation_length, NoDup_Permutation; auto.
    intro v. rewrite H. unfold m. rewrite in_map_iff. split.
    - intros (i & Hi & ->). exists (Z.to_nat i). rewrite in_seq. rewrite Z2Nat.id by lia. split; auto. lia.
    - intros (i & <- & Hi). apply in_seq in Hi. exists (Z.of_nat i). split; auto. lia. }
  unfold m. rewrite map_length, seq_length. lia.
Qed.
Lemma has_fun ls l r v w : NoDup ls -> has ls l r v -> has ls l r w -> v = w.
Proof.
  intros ND (k & Hk & Hv) (j & Hj & Hw). assert (j = k) as ->.
  { eapply NoDup_nth_error; eauto. apply nth_error_Some; congruence. congruence. }
  congruence.
Qed.
Lemma mul_nonneg' n d : (0 <= n)%Z -> 0 < d -> 0 <= ZQ n * d.
Proof. intros. apply qmult_nonneg; [rewrite <- ZQ_0; apply ZQ_le; auto | apply qc_lt_le; auto]. Qed.
Lemma grid_inside (o d : Qc) (n i : Z) : 0 < d -> (0 <= i < n)%Z -> o <= o + ZQ i * d <= o + ZQ n * d.
Proof.
  intros Hd Hi. assert (0 <= ZQ i * d) by (apply mul_nonneg'; auto; lia).
  assert (0 <= ZQ (n - i) * d) by (apply mul_nonneg'; auto; lia).
  rewrite ZQ_sub in *. assert ((ZQ n - ZQ i) * d = ZQ n * d - ZQ i * d) by ring. split; qlra'.
Qed.
Lemma cut_whole_grid f g ox oy nx ny dx dy : wf (data f) -> 0 < dx -> 0 < dy -> (0 <= nx)%Z -> (0 <= ny)%Z ->
  f_origin (info f) = Some (ox, oy) -> f_shape (info f) = Some (nx, ny) -> f_spacing (info f) = Some (dx, dy) ->
  (forall x, (exists i, (0 <= i < nx)%Z /\ x = ox + ZQ i * dx) <-> exists r, In r (rows (data f)) /\ has (labels (data f)) "X" r x) ->
  (forall y, (exists j, (0 <= j < ny)%Z /\ y = oy + ZQ j * dy) <-> exists r, In r (rows (data f)) /\ has (labels (data f)) "Y" r y) ->
  cut (None, None) (None, None) f = Ok g ->
  data g = data f /\ info g = mkFinfo (Some (nx, ny)) (Some (ox, oy)) (Some (dx, dy)) (Some (nx * ny)%Z).
Proof.
  intros W Hdx Hdy Hnx Hny Ho Hs Hp GX GY HC.
  destruct (cut_inv _ _ _ _ _ _ _ _ _ _ Ho Hs Hp HC) as (f1 & f2 & xs & ys & H1 & H2 & _ & _ & _ & _).
  destruct (cut_exact _ _ _ _ _ _ _ _ _ _ W Ho Hs Hp HC) as (L & S & ux & uy & Nx & Ux & Ny & Uy & I).
  cbn [fst snd] in *.
  assert (In "X"%string (labels (data f))) as IX.
  { destruct (in_dec String.string_dec "X"%string (labels (data f))); auto.
    rewrite (proj2 (lims_defined _ _ _ _)) in H1; auto; discriminate. }
  assert (In "Y"%string (labels (data f))) as IY.
  { destruct (lims_exact _ _ _ _ _ W H1) as (L1 & _ & _). rewrite <- L1.
    destruct (in_dec String.string_dec "Y"%string (labels (data f1))); auto.
    rewrite (proj2 (lims_defined _ _ _ _)) in H2; auto; discriminate. }
  assert (forall l, In l (labels (data f)) -> forall r, In r (rows (data f)) -> exists v, has (labels (data f)) l r v) as HV.
  { intros l Hl r Hr. destruct W as [ND LW]. destruct (index_of_some _ _ Hl) as [k Hk].
    exists (col k r). apply (has_col _ _ k); auto. }
  assert (rows (data g) = rows (data f)) as R.
  { eapply selects_fun; [exact S|]. apply selects_all. intros r Hr. split.
    - destruct (HV _ IX r Hr) as [v Hv]. exists v; split; auto.
      destruct (proj2 (GX v)) as (i & Hi & ->); [eauto|].
      pose proof (grid_inside ox dx nx i Hdx Hi) as [? ?].
      split; intros ? [= <-]; auto.
    - destruct (HV _ IY r Hr) as [v Hv]. exists v; split; auto.
      destruct (proj2 (GY v)) as (i & Hi & ->); [eauto|].
      pose proof (grid_inside oy dy ny i Hdy Hi) as [? ?].
      split; intros ? [= <-]; auto. }
  split; [apply table_eq; auto|].
  rewrite I. rewrite R, L in *.
  rewrite (grid_count ox dx nx ux), (grid_count oy dy ny uy); auto; intro v; [rewrite Uy, GY | rewrite Ux, GX]; tauto.
Qed.

(** ** sort *)
Definition key_le ky kx (a b : list Qc) := lexle (sort_key ky kx a) (sort_key ky kx b).
Lemma key_total ky kx x y : key_le ky kx x y = true \/ key_le ky kx y x = true.
Proof. apply lexle_total. Qed.
Lemma key_trans ky kx x y z : key_le ky kx x y = true -> key_le ky kx y z = true -> key_le ky kx x z = true.
Proof. apply lexle_trans. Qed.
Lemma key_antisym ky kx x y : key_le ky kx x y = true -> key_le ky kx y x = true -> x = y.
Proof. intros H H'. pose proof (lexle_antisym _ _ H H') as E. unfold sort_key in E. congruence. Qed.
Lemma sorted_nth {A} (le : A -> A -> bool) l : sorted le l -> forall i j a b, (i < j)%nat ->
  nth_error l i = Some a -> nth_error l j = Some b -> le a b = true.
Proof.
  induction 1 as [|x l Hx Hl IH]; intros i j a b Hij Ha Hb; [destruct i; discriminate|].
  destruct j; [lia|]. destruct i; simpl in *.
  - inversion Ha; subst. apply Hx. eapply nth_error_In; eauto.
  - apply (IH i j); auto; lia.
Qed.
Lemma sort_spec t t' : wf t -> sort_table t = Ok t' ->
  labels t' = labels t /\ Permutation (rows t) (rows t') /\
  forall i j r r' x y x' y', (i < j)%nat -> nth_error (rows t') i = Some r -> nth_error (rows t') j = Some r' ->
    has (labels t) "X" r x -> has (labels t) "Y" r y -> has (labels t) "X" r' x' -> has (labels t) "Y" r' y' ->
    y < y' \/ (y = y' /\ x <= x').
Proof.
  intros [ND L]. unfold sort_table.
  destruct (index_of "Y" _) as [ky|] eqn:IY; [|discriminate].
  destruct (index_of "X" _) as [kx|] eqn:IX; [|discriminate].
  intros [= <-]; simpl. split; auto.
  pose proof (isort_perm (key_le ky kx) (rows t)) as P. split; auto.
  intros i j r r' x y x' y' Hij Hr Hr' Hx Hy Hx' Hy'.
  assert (length r = length (labels t)) as Lr.
  { apply L. apply (Permutation_in _ (Permutation_sym P)). eapply nth_error_In; eauto. }
  assert (length r' = length (labels t)) as Lr'.
  { apply L. apply (Permutation_in _ (Permutation_sym P)). eapply nth_error_In; eauto. }
  apply (has_col _ _ kx) in Hx, Hx'; auto. apply (has_col _ _ ky) in Hy, Hy'; auto. subst.
  pose proof (sorted_nth _ _ (isort_sorted (key_le ky kx) (key_total ky kx) (key_trans ky kx) (rows t)) _ _ _ _ Hij Hr Hr') as S.
  unfold key_le, sort_key in S. rewrite !lexle_cons in S.
  destruct S as [S|[E [S|[E' _]]]]; [left; auto | right; split; auto; apply qc_lt_le; auto | right; split; auto; rewrite E'; qlra'].
Qed.
Lemma sort_canonical t u : labels t = labels u -> Permutation (rows t) (rows u) -> sort_table t = sort_table u.
Proof.
  intros L P. unfold sort_table. rewrite L. destruct (index_of "Y" _) as [ky|]; auto.
  destruct (index_of "X" _) as [kx|]; auto. do 2 f_equal.
  apply (isort_canonical (key_le ky kx)); [apply key_total | apply key_trans | apply key_antisym | auto].
Qed.
Lemma sort_idem t t' : sort_table t = Ok t' -> sort_table t' = Ok t'.
Proof.
  intro H. rewrite <- H. symmetry. revert H. unfold sort_table at 1.
  destruct (index_of "Y" _) as [ky|] eqn:IY; [|discriminate].
  destruct (index_of "X" _) as [kx|] eqn:IX; [|discriminate].
  intros [= <-]. apply sort_canonical; auto. simpl. apply isort_perm.
Qed.
Lemma sort_defined t : (exists t', sort_table t = Ok t') <-> In "X"%string (labels t) /\ In "Y"%string (labels t).
Proof.
  unfold sort_table. split.
  - destruct (index_of "Y" _) as [ky|] eqn:IY; [|intros [? ?]; discriminate].
    destruct (index_of "X" _) as [kx|] eqn:IX; [|intros [? ?]; discriminate].
    intros _. apply index_of_spec, nth_error_In in IX, IY. auto.
  - intros [HX HY]. destruct (index_of_some _ _ HX) as [k ->], (index_of_some _ _ HY) as [k' ->]. eauto.
Qed.

(** ** translate *)
Lemma set_col_length k x r : length (set_col k x r) = length r.
Proof. revert k; induction r; destruct k; simpl; auto. Qed.
Lemma set_col_nth k x r j : (k < length r)%nat -> nth_error (set_col k x r) j = if Nat.eqb j k then Some x else nth_error r j.
Proof.
  revert k j; induction r as [|y r IH]; intros k j H; simpl in H; [lia|].
  destruct k; simpl.
  - destruct j; reflexivity.
  - destruct j; simpl; auto. apply IH; lia.
Qed.
Lemma set_col_shifted ls l k d r : NoDup ls -> length r = length ls -> index_of l ls = Some k ->
  shifted ls l d r (set_col k (col k r + d) r).
Proof.
  intros ND L I. pose proof (index_of_spec _ _ _ I) as Hk.
  assert (k < length ls)%nat by (apply nth_error_Some; congruence).
  split; [apply set_col_length|]. split.
  - intros v Hv. apply (has_col _ _ k) in Hv; auto. subst.
    exists k; split; auto. rewrite set_col_nth, Nat.eqb_refl; auto; lia.
  - intros l' v Hl (j & Hj & Hv). exists j; split; auto.
    rewrite set_col_nth by lia. destruct (Nat.eqb_spec j k); auto. subst. congruence.
Qed.
Lemma fit_length n c d : fit n c = Ok d -> length d = n.
Proof.
  unfold fit. destruct (Nat.eqb_spec (length c) n); [intros [= <-]; auto|].
  destruct c as [|x [|]]; try discriminate. intros [= <-]. apply repeat_length.
Qed.
Lemma combine_split' {A B} (l : list A) (m : list B) : length l = length m ->
  Forall2 (fun a p => fst p = a) l (combine l m) /\ map snd (combine l m) = m.
Proof.
  revert m; induction l as [|a l IH]; intros [|b m] H; simpl in *; try discriminate; split; auto.
  - constructor; auto. apply IH; auto.
  - f_equal. apply IH; auto.
Qed.
Lemma translate_array l v f g : wf (data f) -> translate l v f = Ok g ->
  labels (data g) = labels (data f) /\ info g = info f /\
  exists ds, length ds = length (rows (data f)) /\
    (match v with inl q => forall d, In d ds -> d = q
     | inr c => ds = c \/ exists q, c = [q] /\ forall d, In d ds -> d = q end) /\
    length (rows (data g)) = length (rows (data f)) /\
    forall i r d, nth_error (rows (data f)) i = Some r -> nth_error ds i = Some d ->
      exists r', nth_error (rows (data g)) i = Some r' /\ shifted (labels (data f)) l d r r'.
Proof.
  intros [ND W]. unfold translate. destruct (index_of l _) as [k|] eqn:I; [|discriminate].
  destruct (broadcast _ v) as [ds|] eqn:B; simpl; [|discriminate]. intros [= <-]; simpl.
  split; auto. split; auto.
  assert (length ds = length (rows (data f))) as LD.
  { destruct v; simpl in B. inversion B; apply repeat_length. eapply fit_length; eauto. }
  exists ds. split; auto. split.
  { destruct v as [q|c]; simpl in B.
    - inversion B; subst. intros d Hd. apply repeat_spec in Hd; auto.
    - unfold fit in B. destruct (Nat.eqb _ _); [inversion B; auto|].
      destruct c as [|x [|]]; try discriminate. inversion B; subst. right; exists x; split; auto.
      intros d Hd. apply repeat_spec in Hd; auto. }
  split. { rewrite map_length, combine_length. lia. }
  intros i r d Hr Hd.
  assert (nth_error (combine (rows (data f)) ds) i = Some (r, d)) as E.
  { clear -Hr Hd. revert ds i Hr Hd. induction (rows (data f)) as [|a l' IH]; intros [|b m] [|i] Hr Hd; simpl in *; try discriminate; auto.
    congruence. }
  eexists. split. rewrite nth_error_map, E; reflexivity. simpl.
  apply set_col_shifted; auto. apply W. eapply nth_error_In; eauto.
Qed.
Lemma set_col_twice k x y r : set_col k x (set_col k y r) = set_col k x r.
Proof. revert k; induction r; destruct k; simpl; auto. f_equal; auto. Qed.
Lemma set_col_same k r : (k < length r)%nat -> set_col k (col k r) r = r.
Proof.
  unfold col. revert k; induction r; intros [|k] H; simpl in *; try lia; auto. f_equal. apply IHr; lia.
Qed.
Lemma col_set_col k x r : (k < length r)%nat -> col k (set_col k x r) = x.
Proof.
  unfold col. revert k; induction r; intros [|k] H; simpl in *; try lia; auto. apply IHr; lia.
Qed.
Lemma translate_scalar_rows l k q f : index_of l (labels (data f)) = Some k ->
  translate l (inl q) f = Ok (mkFlow (mkTable (labels (data f)) (map (fun r => set_col k (col k r + q) r) (rows (data f)))) (info f)).
Proof.
  intro I. unfold translate. rewrite I. simpl. do 3 f_equal.
  induction (rows (data f)); simpl; auto. f_equal; auto.
Qed.
Lemma translate_compose l a b f : wf (data f) ->
  (do g <- translate l (inl a) f; translate l (inl b) g) = translate l (inl (a + b)) f.
Proof.
  intros [ND W]. destruct (index_of l (labels (data f))) as [k|] eqn:I.
  - rewrite (translate_scalar_rows l k a f I). simpl rbind.
    rewrite (translate_scalar_rows l k (a + b) f I).
    rewrite (translate_scalar_rows l k b); simpl; auto. do 3 f_equal. rewrite map_map.
    apply map_ext_in. intros r Hr.
    assert (k < length r)%nat. { rewrite W by auto. apply nth_error_Some. rewrite (index_of_spec _ _ _ I). discriminate. }
    rewrite col_set_col, set_col_twice by auto. f_equal. ring.
  - unfold translate. rewrite I. reflexivity.
Qed.
Lemma translate_zero l f : wf (data f) -> In l (labels (data f)) -> translate l (inl 0) f = Ok f.
Proof.
  intros [ND W] Hl. destruct (index_of_some _ _ Hl) as [k I].
  rewrite (translate_scalar_rows l k 0 f I). f_equal. apply flow_eq; auto. apply table_eq; auto. simpl.
  rewrite <- (map_id (rows (data f))) at 2. apply map_ext_in. intros r Hr.
  assert (k < length r)%nat. { rewrite W by auto. apply nth_error_Some. rewrite (index_of_spec _ _ _ I). discriminate. }
  replace (col k r + 0) with (col k r) by ring. apply set_col_same; auto.
Qed.
Lemma translate_errors l v f :
  (~ In l (labels (data f)) -> translate l v f = Err KeyErr) /\
  (forall c, In l (labels (data f)) -> v = inr c -> length c <> length (rows (data f)) -> length c <> 1%nat ->
     translate l v f = Err ValueErr).
Proof.
  unfold translate; split.
  - intro H. rewrite index_of_none; auto.
  - intros c H -> Hc H1. destruct (index_of_some _ _ H) as [k ->]. simpl. unfold fit.
    destruct (Nat.eqb_spec (length c) (length (rows (data f)))); [contradiction|].
    destruct c as [|x [|]]; simpl in *; try reflexivity. congruence.
Qed.

(** ** memory *)
Lemma derive_fresh d h o h' o' : h_derive d h o = Ok (h', o') ->
  addr o' = length h /\ length h' = S (length h) /\
  (forall a t, nth_error h a = Some t -> nth_error h' a = Some t) /\
  exists f f', deref h o = Some f /\ derive_value d f = Ok f' /\ deref h' o' = Some f'.
Proof.
  unfold h_derive. destruct (deref h o) as [f|] eqn:D; [|discriminate].
  destruct (derive_value d f) as [f'|] eqn:V; simpl; [|discriminate]. intros [= <- <-]; simpl.
  split; auto. split; [rewrite app_length; simpl; lia|]. split.
  - intros a t Ha. rewrite nth_error_app1; auto. apply nth_error_Some; congruence.
  - exists f, f'. repeat split; auto. unfold deref; simpl. rewrite nth_error_app2, Nat.sub_diag by lia. simpl.
    destruct f'; reflexivity.
Qed.
Lemma hset_other h a t b : b <> a -> nth_error (hset h a t) b = nth_error h b.
Proof.
  revert a b; induction h; intros [|a'] [|b] H; simpl; auto; congruence.
Qed.
Lemma hset_length h a t : length (hset h a t) = length h.
Proof. revert a; induction h; intros [|a']; simpl; auto. Qed.
Lemma deref_hset h o a t : addr o <> a -> deref (hset h a t) o = deref h o.
Proof. intro H. unfold deref. rewrite hset_other; auto. Qed.
Lemma derive_no_alias d h o h' o' t : h_derive d h o = Ok (h', o') ->
  deref (hset h' (addr o') t) o = deref h o /\
  deref (hset h' (addr o) t) o' = deref h' o'.
Proof.
  intro H. destruct (derive_fresh _ _ _ _ _ H) as (A & L & K & f & f' & D & V & D').
  assert (addr o < length h)%nat.
  { unfold deref in D. destruct (nth_error h (addr o)) eqn:E; [|discriminate]. apply nth_error_Some; congruence. }
  split.
  - rewrite deref_hset by lia. unfold deref. destruct (nth_error h (addr o)) as [u|] eqn:E.
    + rewrite (K _ _ E). reflexivity.
    + apply nth_error_None in E. lia.
  - apply deref_hset. lia.
Qed.
Lemma sort_in_place h o h' : h_sort h o = Ok h' ->
  length h' = length h /\ (forall o2, addr o2 <> addr o -> deref h' o2 = deref h o2).
Proof.
  unfold h_sort. destruct (nth_error h (addr o)) as [t|]; [|discriminate].
  destruct (sort_table t); simpl; [|discriminate]. intros [= <-].
  split; [apply hset_length|]. intros; apply deref_hset; auto.
Qed.

(** ** grid information *)
Lemma float_pair_spec v : match float_pair v with
  | Ok None => v = PNone \/ v = PSeq true [PNone; PNone]
  | Ok (Some (a, b)) => exists tp l, v = PSeq tp (PNum a :: PNum b :: l)
  | Err e => e = ValueErr
  end.
Proof.
  destruct v as [| |tp l| |]; simpl; auto.
  destruct tp, l as [|[] [|[] []]]; simpl; eauto; try (right; reflexivity).
Qed.
Lemma set_data_spec cols t : set_data cols = Ok t ->
  labels t = map fst cols /\ NoDup (labels t) /\ wf t /\
  (forall n, (forall c, In c cols -> length (snd c) = n) ->
     length (rows t) = n /\ forall l c, In (l, c) cols -> get_data l t = Some c).
Proof.
  unfold set_data. destruct cols as [|[l0 c0] cols']; [discriminate|].
  set (cols := (l0, c0) :: cols'). assert (In (l0, c0) cols) as H0 by (left; auto). clearbody cols.
  destruct (nodupb (map fst cols)) eqn:ND; [|discriminate].
  destruct (rmapM (fit (length c0)) (map snd cols)) as [cs|] eqn:R; simpl rbind; [|discriminate].
  intros [= <-]; simpl labels; simpl rows.
  assert (NoDup (map fst cols)) as N.
  { clear -ND. induction (map fst cols) as [|x l IH]; [constructor|]. simpl in ND.
    apply andb_true_iff in ND as [E ND]. constructor; auto. intro H.
    apply negb_true_iff in E. assert (existsb (String.eqb x) l = true); [|congruence].
    apply existsb_exists. exists x; split; auto. apply String.eqb_refl. }
  assert (length cs = length (map fst cols)) as LC.
  { rewrite (rmapM_length _ _ _ R), !map_length. auto. }
  split; auto. split; auto. split.
  { split; auto. simpl. intros r Hr. apply in_map_iff in Hr as (i & <- & _). rewrite map_length. auto. }
  intros n Hn. assert (n = length c0) as -> by (symmetry; apply (Hn _ H0)).
  split; [rewrite map_length, seq_length; auto|].
  intros l c Hc. unfold get_data; cbn [labels rows].
  assert (In l (map fst cols)) as Hl by (apply (in_map fst) in Hc; auto).
  destruct (index_of_some _ _ Hl) as [k I]. rewrite I. f_equal.
  assert (cs = map snd cols) as ->.
  { assert (forall m, (forall x, In x m -> length x = length c0) -> forall r, rmapM (fit (length c0)) m = Ok r -> r = m) as G.
    { induction m as [|x m IHm]; simpl; intros Hm r; [intros [= <-]; auto|].
      unfold fit at 1. rewrite (Hm x) by auto. rewrite Nat.eqb_refl. simpl.
      destruct (rmapM _ m) eqn:E; simpl; [|discriminate]. intros [= <-]. f_equal. apply IHm; auto. }
    apply G; auto. intros x Hx. apply in_map_iff in Hx as ([? ?] & <- & Hx). apply (Hn _ Hx). }
  apply index_of_spec in I.
  apply In_nth_error in Hc as [j Hj].
  assert (j = k) as ->.
  { eapply NoDup_nth_error. exact N. apply nth_error_Some. rewrite nth_error_map, Hj. discriminate.
    rewrite I, nth_error_map, Hj. reflexivity. }
  assert (length c = length c0) as L0. { change c with (snd (l, c)). apply Hn. eapply nth_error_In; eauto. }
  rewrite map_map. unfold col.
  rewrite <- L0. rewrite <- (map_id c) at 2. rewrite <- (map_nth_seq (fun x => x) c 0).
  apply map_ext. intro i.
  erewrite nth_error_nth; [reflexivity|]. rewrite nth_error_map, nth_error_map, Hj. reflexivity.
Qed.
