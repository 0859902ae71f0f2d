(** Lemmas for C91: the interface search in other units. *)
From Coq Require Import Lia.
From Verif.Base Require Import QcX Res Np Sort.
From Verif.Model Require Import Bins Flow Interface.
From Verif.Spec Require Import UnitsSpec.
Local Open Scope list_scope.
Local Open Scope Qc_scope.

(** ** Increasing affine maps *)
Section Affine.
Variables s a : Qc.
Hypothesis Hs : 0 < s.
Let f (x : Qc) : Qc := s * x + a.
Lemma lt_scale x y : x < y <-> s * x < s * y.
Proof.
  split; intros H.
  - rewrite !(Qcmult_comm s). apply Qcmult_lt_compat_r; assumption.
  - destruct (Qclt_le_dec x y) as [L|L]; [exact L|]. exfalso. assert (s * y <= s * x) as C by (rewrite !(Qcmult_comm s); apply Qcmult_le_compat_r; [exact L|apply Qclt_le_weak; exact Hs]).
    exact (Qclt_not_le _ _ H C).
Qed.
Lemma qlt_aff x y : qlt (f x) (f y) = qlt x y.
Proof.
  destruct (qlt x y) eqn:E; [apply qlt_true in E; apply qlt_true|apply qlt_false in E; apply qlt_false]; unfold f.
  - apply lt_scale in E. qlra'.
  - assert (s * y <= s * x) by (destruct (Qclt_le_dec (s * x) (s * y)) as [L|L]; [apply lt_scale in L; qlra'|exact L]). qlra'.
Qed.
Lemma qle_aff x y : qle (f x) (f y) = qle x y.
Proof.
  pose proof (qlt_aff y x) as H. destruct (qle x y) eqn:E; [apply qle_true in E; apply qle_true|apply qle_false in E; apply qle_false].
  - assert (qlt y x = false) as L by (apply qlt_false; exact E). rewrite L in H. apply qlt_false in H. exact H.
  - assert (qlt y x = true) as L by (apply qlt_true; exact E). rewrite L in H. apply qlt_true in H. exact H.
Qed.
Lemma qeq_aff x y : qeq (f x) (f y) = qeq x y.
Proof.
  destruct (qeq x y) eqn:E.
  - apply qeq_true in E. subst. apply qeq_true. reflexivity.
  - destruct (qeq (f x) (f y)) eqn:E2; [|reflexivity]. apply qeq_true in E2. assert (x = y) as C; [|subst; rewrite (proj2 (qeq_true y y) eq_refl) in E; discriminate].
    apply Qcle_antisym; apply qle_true; rewrite <- qle_aff; apply qle_true; rewrite E2; apply Qcle_refl.
Qed.
Lemma qmin_aff x y : qmin (f x) (f y) = f (qmin x y).
Proof. unfold qmin. rewrite qle_aff. destruct (qle x y); reflexivity. Qed.
Lemma qmax_aff x y : qmax (f x) (f y) = f (qmax x y).
Proof. unfold qmax. rewrite qle_aff. destruct (qle x y); reflexivity. Qed.
Lemma list_min_aff l : list_min (map f l) = option_map f (list_min l).
Proof. destruct l as [|x l]; [reflexivity|]. cbn [map list_min option_map]. f_equal. revert x. induction l as [|y l IH]; intros x; [reflexivity|]. cbn [map fold_left]. rewrite qmin_aff. apply IH. Qed.
Lemma list_max_aff l : list_max (map f l) = option_map f (list_max l).
Proof. destruct l as [|x l]; [reflexivity|]. cbn [map list_max option_map]. f_equal. revert x. induction l as [|y l IH]; intros x; [reflexivity|]. cbn [map fold_left]. rewrite qmax_aff. apply IH. Qed.
Lemma uinsert_aff x l : uinsert (f x) (map f l) = map f (uinsert x l).
Proof. induction l as [|y l IH]; [reflexivity|]. cbn [map uinsert]. rewrite qlt_aff, qeq_aff. destruct (qlt x y); [reflexivity|]. destruct (qeq x y); [reflexivity|]. cbn [map]. f_equal. exact IH. Qed.
Lemma unique_aff l : unique (map f l) = map f (unique l).
Proof. induction l as [|x l IH]; [reflexivity|]. cbn [map unique fold_right]. fold (unique (map f l)). fold (unique l). rewrite IH. apply uinsert_aff. Qed.
Lemma within_aff lo hi v : within (option_map f lo) (option_map f hi) (f v) = within lo hi v.
Proof. unfold within. destruct lo, hi; cbn [option_map]; rewrite ?qle_aff; reflexivity. Qed.
Lemma qdiff_aff l : qdiff (map f l) = map (fun d => s * d) (qdiff l).
Proof.
  induction l as [|x l IH]; [reflexivity|]. destruct l as [|y l]; [reflexivity|]. cbn [map qdiff] in *. cbn [map]. f_equal; [unfold f; ring|exact IH].
Qed.
End Affine.
Lemma filter_map {A B} (P : B -> bool) (f : A -> B) l : filter P (map f l) = map f (filter (fun x => P (f x)) l).
Proof. induction l as [|x l IH]; [reflexivity|]. cbn [map filter]. destruct (P (f x)); cbn [map]; rewrite IH; reflexivity. Qed.
Lemma rmapM_map {A B C} (g : B -> res C) (f : A -> B) l : rmapM g (map f l) = rmapM (fun x => g (f x)) l.
Proof. induction l as [|x l IH]; [reflexivity|]. cbn [map rmapM]. destruct (g (f x)); [|reflexivity]. cbn [rbind]. rewrite IH. reflexivity. Qed.
Lemma rmapM_ext {A B} (g h : A -> res B) l : (forall x, In x l -> g x = h x) -> rmapM g l = rmapM h l.
Proof.
  induction l as [|x l IH]; intros H; [reflexivity|]. cbn [rmapM]. rewrite H by (left; reflexivity). rewrite IH by (intros y Hy; apply H; right; exact Hy). reflexivity.
Qed.
Lemma insert_map {A} (le : A -> A -> bool) (f : A -> A) : (forall x y, le (f x) (f y) = le x y) -> forall x l, insert le (f x) (map f l) = map f (insert le x l).
Proof. intros H x l. induction l as [|y l IH]; [reflexivity|]. cbn [map insert]. rewrite H. destruct (le x y); [reflexivity|]. cbn [map]. f_equal. exact IH. Qed.
Lemma isort_map {A} (le : A -> A -> bool) (f : A -> A) : (forall x y, le (f x) (f y) = le x y) -> forall l, isort le (map f l) = map f (isort le l).
Proof. intros H l. induction l as [|x l IH]; [reflexivity|]. cbn [map isort fold_right]. fold (isort le (map f l)). fold (isort le l). rewrite IH. apply insert_map. exact H. Qed.
Lemma nth_in {A} (f : A -> A) l i d : (i < length l)%nat -> nth i (map f l) d = f (nth i l d).
Proof. revert i. induction l as [|x l IH]; intros [|i] H; cbn [length] in H; try lia; [reflexivity|]. cbn [map nth]. apply IH. lia. Qed.

(** ** The search *)
Section Units.
Variables (u : units) (V W : bin -> Qc) (k v0 : Qc).
Hypotheses (Hu : units_ok u) (Hk : 0 < k) (HV : forall b, W (in_units u b) = k * V b + v0).
Notation T := (in_units u).
Notation s := (u_len u).
Notation nv := (fun v : Qc => k * v + v0).
Lemma s_pos : 0 < s. Proof. exact (proj1 Hu). Qed.
Lemma scale_as f x : (f * x : Qc) = f * x + 0. Proof. ring. Qed.
Lemma qeq_scale f x y : 0 < f -> qeq (f * x) (f * y) = qeq x y.
Proof. intros H. rewrite (scale_as f x), (scale_as f y). apply (qeq_aff f 0 H). Qed.
Lemma qle_scale f x y : 0 < f -> qle (f * x) (f * y) = qle x y.
Proof. intros H. rewrite (scale_as f x), (scale_as f y). apply (qle_aff f 0 H). Qed.
Lemma qlt_scale f x y : 0 < f -> qlt (f * x) (f * y) = qlt x y.
Proof. intros H. rewrite (scale_as f x), (scale_as f y). apply (qlt_aff f 0 H). Qed.
Lemma beq_units b c : beq (T b) (T c) = beq b c.
Proof.
  destruct Hu as (H1 & H2 & H3 & H4 & H5). unfold beq, in_units, new_x, new_y. cbn [bX bY bN bT bM bU bV]. rewrite !(qeq_aff _ _ H1), !(qeq_scale _ _ _ H2), !(qeq_scale _ _ _ H3), !(qeq_scale _ _ _ H4), !(qeq_scale _ _ _ H5). reflexivity.
Qed.
Lemma bin_le_units b c : bin_le (T b) (T c) = bin_le b c.
Proof.
  destruct Hu as (H1 & H2 & H3 & H4 & H5). unfold bin_le, bin_key, in_units, new_x, new_y. cbn [bX bY bN bT bM bU bV lexle].
  rewrite !(qeq_aff _ _ H1), !(qeq_scale _ _ _ H2), !(qeq_scale _ _ _ H3), !(qeq_scale _ _ _ H4), !(qeq_scale _ _ _ H5).
  rewrite !(qlt_aff _ _ H1), !(qlt_scale _ _ _ H2), !(qlt_scale _ _ _ H3), !(qlt_scale _ _ _ H4), !(qlt_scale _ _ _ H5). reflexivity.
Qed.
Lemma value_units c b : qle (nv c) (W (T b)) = qle c (V b).
Proof. rewrite HV. apply (qle_aff k v0 Hk). Qed.
Lemma nth_units l i : (i < length l)%nat -> nth i (map T l) bin0 = T (nth i l bin0).
Proof. apply nth_in. Qed.
Lemma sq_pos : 0 < s * s.
Proof. pose proof s_pos as H. qc2q. nra. Qed.
Lemma radius_units i system r : (i < length system)%nat -> indices_in_radius i (map T system) (s * r) = indices_in_radius i system r.
Proof.
  intros Hi. unfold indices_in_radius. rewrite map_length, nth_units by exact Hi.
  assert (forall l, (forall j, In j l -> (j < length system)%nat) -> filter (fun j => qle (sq (bX (nth j (map T system) bin0) - bX (T (nth i system bin0)))) (sq (s * r))) l =
    filter (fun j => qle (sq (bX (nth j system bin0) - bX (nth i system bin0))) (sq r)) l) as F1.
  { intros l Hl. apply filter_ext_in. intros j Hj. rewrite nth_units by (apply Hl; exact Hj). cbn [in_units bX]. unfold sq, new_x.
    transitivity (qle ((s * s) * ((bX (nth j system bin0) - bX (nth i system bin0)) * (bX (nth j system bin0) - bX (nth i system bin0)))) ((s * s) * (r * r))); [f_equal; ring|]. apply qle_scale. exact sq_pos. }
  assert (forall l, (forall j, In j l -> (j < length system)%nat) -> filter (fun j => qle (sq (bX (nth j (map T system) bin0) - bX (T (nth i system bin0))) + sq (bY (nth j (map T system) bin0) - bY (T (nth i system bin0)))) (sq (s * r))) l =
    filter (fun j => qle (sq (bX (nth j system bin0) - bX (nth i system bin0)) + sq (bY (nth j system bin0) - bY (nth i system bin0))) (sq r)) l) as F2.
  { intros l Hl. apply filter_ext_in. intros j Hj. rewrite nth_units by (apply Hl; exact Hj). cbn [in_units bX bY]. unfold sq, new_x, new_y.
    transitivity (qle ((s * s) * ((bX (nth j system bin0) - bX (nth i system bin0)) * (bX (nth j system bin0) - bX (nth i system bin0)) + (bY (nth j system bin0) - bY (nth i system bin0)) * (bY (nth j system bin0) - bY (nth i system bin0)))) ((s * s) * (r * r))); [f_equal; ring|].
    apply qle_scale. exact sq_pos. }
  assert (forall j, In j (seq 0 (length system)) -> (j < length system)%nat) as HS by (intros j Hj; apply in_seq in Hj; lia).
  rewrite F1 by exact HS. rewrite F2; [reflexivity|]. intros j Hj. apply filter_In in Hj as [Hj _]. apply HS. exact Hj.
Qed.
Lemma in_radius_bound i system r j : In j (indices_in_radius i system r) -> (j < length system)%nat.
Proof. unfold indices_in_radius. intros H. apply filter_In in H as [H _]. apply filter_In in H as [H _]. apply filter_In in H as [H _]. apply in_seq in H. lia. Qed.
Lemma droplet_units i system r c nb : (i < length system)%nat -> cell_is_droplet W i (map T system) (s * r) (nv c) nb = cell_is_droplet V i system r c nb.
Proof.
  intros Hi. unfold cell_is_droplet. rewrite radius_units, nth_units, value_units by exact Hi. f_equal. f_equal. f_equal. f_equal.
  apply filter_ext_in. intros j Hj. apply in_radius_bound in Hj. rewrite nth_units by exact Hj. apply value_units.
Qed.
Lemma find_units b l : find_record (T b) (map T l) = find_record b l.
Proof. induction l as [|c l IH]; [reflexivity|]. cbn [map find_record]. rewrite beq_units. destruct (beq c b); [reflexivity|]. rewrite IH. reflexivity. Qed.
Lemma find_bound b l i : find_record b l = Ok i -> (i < length l)%nat.
Proof.
  revert i. induction l as [|c l IH]; intros i H; [discriminate|]. cbn [find_record] in H. destruct (beq c b); [injection H as <-; cbn; lia|]. destruct (find_record b l) as [j|]; [|discriminate]. injection H as <-. specialize (IH j eq_refl). cbn; lia.
Qed.
Lemma traverse_units layer l r c nb : traverse_layer W (map T layer) (map T l) (s * r) (nv c) nb = traverse_layer V layer l r c nb.
Proof.
  induction layer as [|b layer IH]; [reflexivity|]. cbn [map traverse_layer]. rewrite find_units. destruct (find_record b l) as [i|] eqn:E; [|reflexivity]. cbn [rbind].
  rewrite droplet_units by (eapply find_bound; exact E). rewrite IH. reflexivity.
Qed.
Lemma map_bY l : map bY (map T l) = map (new_y u) (map bY l).
Proof. rewrite !map_map. reflexivity. Qed.
Lemma map_bX l : map bX (map T l) = map (new_x u) (map bX l).
Proof. rewrite !map_map. reflexivity. Qed.
Lemma yvalues_units l lo hi : get_yvalues (map (new_y u) l) (option_map (new_y u) lo) (option_map (new_y u) hi) = map (new_y u) (get_yvalues l lo hi).
Proof.
  unfold get_yvalues. unfold new_y. rewrite (unique_aff s (u_y0 u) s_pos). rewrite filter_map. f_equal. apply filter_ext_in. intros y _. apply (within_aff s (u_y0 u) s_pos).
Qed.
Lemma map_nth_units l inds : (forall i, In i inds -> (i < length l)%nat) -> map (fun i => nth i (map T l) bin0) inds = map T (map (fun i => nth i l bin0) inds).
Proof. intros H. rewrite map_map. apply map_ext_in. intros i Hi. apply nth_units. apply H. exact Hi. Qed.
Lemma inds_units (P Q : bin -> bool) l : (forall b, In b l -> P (T b) = Q b) -> filter (fun i => P (nth i (map T l) bin0)) (seq 0 (length (map T l))) = filter (fun i => Q (nth i l bin0)) (seq 0 (length l)).
Proof.
  intros H. rewrite map_length. apply filter_ext_in. intros i Hi. apply in_seq in Hi. rewrite nth_units by lia. apply H. apply nth_In. lia.
Qed.
Lemma inds_bound (P : nat -> bool) (l : list bin) i : In i (filter P (seq 0 (length l))) -> (i < length l)%nat.
Proof. intros H. apply filter_In in H as [H _]. apply in_seq in H. lia. Qed.
Theorem walls_units l r c nb lo hi : interface_walls W (map T l) (s * r) (nv c) nb (option_map (new_y u) lo) (option_map (new_y u) hi) = interface_walls V l r c nb lo hi.
Proof.
  unfold interface_walls. rewrite (inds_units (fun b => qle (nv c) (W b)) (fun b => qle c (V b))) by (intros; apply value_units).
  set (inds := filter _ _). rewrite map_nth_units by (intros i Hi; eapply inds_bound; exact Hi). set (data := map (fun i => nth i l bin0) inds). rewrite map_bY, yvalues_units, rmapM_map. f_equal.
  apply rmapM_ext. intros y _. rewrite filter_map. rewrite (filter_ext_in _ (fun b => qeq (bY b) y)) by (intros b _; cbn [in_units bY]; apply (qeq_aff s (u_y0 u) s_pos)).
  rewrite (isort_map bin_le T bin_le_units). rewrite <- map_rev. rewrite !traverse_units. reflexivity.
Qed.
(** The search for the longest stretch, which assumes that the box begins at x = 0. *)
Hypothesis Hx : u_x0 u = 0.
Lemma shift_units d b : shift_x (s * d) (T b) = T (shift_x d b).
Proof. unfold shift_x, in_units, new_x. cbn [bX bY bN bT bM bU bV]. f_equal. ring. Qed.
Lemma slice_units l box y r : yslice_data (map T l) (s * box) (new_y u y) (s * r) = map T (yslice_data l box y r).
Proof.
  assert (forall m, filter (in_yslice (new_y u y) (s * r)) (map T m) = map T (filter (in_yslice y r) m)) as F.
  { intros m. rewrite filter_map. f_equal. apply filter_ext_in. intros b _. unfold in_yslice. cbn [in_units bY]. unfold new_y.
    replace (s * y + u_y0 u + s * r) with (s * (y + r) + u_y0 u) by ring. replace (s * y + u_y0 u - s * r) with (s * (y - r) + u_y0 u) by ring. rewrite !(qle_aff s (u_y0 u) s_pos). reflexivity. }
  unfold yslice_data. rewrite F, map_app. f_equal. rewrite <- F. f_equal. unfold pbc_data. rewrite map_app. f_equal.
  - rewrite filter_map, !map_map. rewrite (filter_ext_in _ (fun b => qle (bX b) r)); [apply map_ext; intros b; apply shift_units|]. intros b _. cbn [in_units bX]. unfold new_x. rewrite Hx. rewrite (scale_as s r). apply (qle_aff s 0 s_pos).
  - rewrite filter_map, !map_map. rewrite (filter_ext_in _ (fun b => qle (box - r) (bX b))).
    + apply map_ext. intros b. rewrite <- shift_units. f_equal. ring.
    + intros b _. cbn [in_units bX]. unfold new_x. rewrite Hx. replace (s * box - s * r) with (s * (box - r) + 0) by ring. apply (qle_aff s 0 s_pos).
Qed.
Lemma filled_units layer l r c nb : filled_cells W (map T layer) (map T l) (s * r) (nv c) nb = filled_cells V layer l r c nb.
Proof.
  unfold filled_cells. rewrite rmapM_map. apply rmapM_ext. intros b _. rewrite find_units. destruct (find_record b l) as [i|] eqn:E; [|reflexivity]. cbn [rbind]. rewrite droplet_units by (eapply find_bound; exact E). reflexivity.
Qed.
Theorem longest_units l box r c nb lo hi : interface_longest W (map T l) (s * box) (s * r) (nv c) nb (option_map (new_y u) lo) (option_map (new_y u) hi) = interface_longest V l box r c nb lo hi.
Proof.
  unfold interface_longest. rewrite map_bY, yvalues_units, rmapM_map. f_equal. apply rmapM_ext. intros y _.
  rewrite (inds_units (fun b => qeq (bY b) (new_y u y)) (fun b => qeq (bY b) y)) by (intros b _; cbn [in_units bY]; apply (qeq_aff s (u_y0 u) s_pos)).
  set (inds := filter _ _). rewrite map_nth_units by (intros i Hi; eapply inds_bound; exact Hi). rewrite (isort_map bin_le T bin_le_units). rewrite slice_units, filled_units. reflexivity.
Qed.
End Units.

(** ** Indices are in range *)
Lemma concat_in {A} (p : A) (l : list (list A)) : In p (concat l) -> exists m, In m l /\ In p m.
Proof. intros H. apply in_concat in H. destruct H as (m & H1 & H2). exists m. auto. Qed.
Lemma rmapM_in {A B} (g : A -> res B) l out y : rmapM g l = Ok out -> In y out -> exists x, In x l /\ g x = Ok y.
Proof.
  revert out. induction l as [|x l IH]; intros out H Hy; cbn [rmapM] in H; [injection H as <-; destruct Hy|]. destruct (g x) as [z|] eqn:E; [|discriminate]. cbn [rbind] in H. destruct (rmapM g l) as [o|] eqn:EO; [|discriminate]. cbn [rbind] in H. injection H as <-.
  destruct Hy as [<- | Hy]; [exists x; split; [left; reflexivity|exact E]|]. destruct (IH o eq_refl Hy) as (x' & H1 & H2). exists x'. split; [right; exact H1|exact H2].
Qed.
Lemma traverse_bound V layer l r c nb i : traverse_layer V layer l r c nb = Ok (Some i) -> (i < length l)%nat.
Proof.
  induction layer as [|b layer IH]; [discriminate|]. cbn [traverse_layer]. destruct (find_record b l) as [j|] eqn:E; [|discriminate]. cbn [rbind]. destruct (cell_is_droplet V j l r c nb); [|exact IH]. intros H. injection H as <-. eapply find_bound. exact E.
Qed.
Lemma walls_bound V l r c nb lo hi pairs p : interface_walls V l r c nb lo hi = Ok pairs -> In p pairs -> (fst p < length l /\ snd p < length l)%nat.
Proof.
  unfold interface_walls. set (inds := filter _ _). destruct (rmapM _ _) as [out|] eqn:E; [|discriminate]. intros H Hp. cbn [rmap rbind] in H. injection H as <-. apply concat_in in Hp as (m & Hm & Hp). destruct (rmapM_in _ _ _ _ E Hm) as (y & _ & HY). clear E Hm.
  set (layer := isort bin_le _) in HY. destruct (traverse_layer V layer _ r c nb) as [[a|]|] eqn:E1; try discriminate; cbn [rbind] in HY; [|injection HY as <-; destruct Hp].
  destruct (traverse_layer V (rev layer) _ r c nb) as [[b|]|] eqn:E2; try discriminate. cbn [rbind] in HY. injection HY as <-. destruct Hp as [<- | []]. cbn [fst snd].
  apply traverse_bound in E1. apply traverse_bound in E2. rewrite map_length in E1, E2. assert (forall i, (i < length inds)%nat -> (nth i inds 0 < length l)%nat) as B.
  { intros i Hi. assert (In (nth i inds 0%nat) inds) as Hin by (apply nth_In; exact Hi). unfold inds in Hin at 2. eapply inds_bound. exact Hin. }
  split; apply B; assumption.
Qed.
Lemma edges_bound flags a b : find_edges flags = Some (a, b) -> (a < length flags /\ b < length flags)%nat.
Proof.
  intros H. destruct flags as [|f flags]; [discriminate|]. unfold find_edges in H. set (n := length (f :: flags)) in *. assert (n <> 0)%nat as Hn by (unfold n; cbn; lia). clearbody n.
  destruct (scan _) as [[[ib lb] bg] lc]. destruct (Nat.ltb 0 lc && Nat.eqb lb 0)%bool; [|destruct (Nat.eqb lb 0); [discriminate|]]; injection H as <- <-; split; apply Nat.mod_upper_bound; exact Hn.
Qed.
Lemma rmapM_length {A B} (g : A -> res B) l out : rmapM g l = Ok out -> length out = length l.
Proof.
  revert out. induction l as [|x l IH]; intros out H; cbn [rmapM] in H; [injection H as <-; reflexivity|]. destruct (g x); [|discriminate]. cbn [rbind] in H. destruct (rmapM g l) as [o|]; [|discriminate]. cbn [rbind] in H. injection H as <-. cbn [length]. f_equal. apply IH. reflexivity.
Qed.
Lemma longest_bound V l box r c nb lo hi pairs p : interface_longest V l box r c nb lo hi = Ok pairs -> In p pairs -> (fst p < length l /\ snd p < length l)%nat.
Proof.
  unfold interface_longest. destruct (rmapM _ _) as [out|] eqn:E; [|discriminate]. intros H Hp. cbn [rmap rbind] in H. injection H as <-. apply concat_in in Hp as (m & Hm & Hp). destruct (rmapM_in _ _ _ _ E Hm) as (y & _ & HY). clear E Hm.
  cbv zeta in HY. set (inds := filter _ _) in HY. destruct (filled_cells _ _ _ _ _ _) as [flags|] eqn:EF; [|discriminate]. cbn [rbind] in HY. destruct (find_edges flags) as [[a b]|] eqn:EE; [|injection HY as <-; destruct Hp].
  injection HY as <-. destruct Hp as [<- | []]. cbn [fst snd]. apply edges_bound in EE. unfold filled_cells in EF. apply rmapM_length in EF. rewrite isort_length, map_length in EF. rewrite EF in EE.
  assert (forall i, (i < length inds)%nat -> (nth i inds 0 < length l)%nat) as B.
  { intros i Hi. assert (In (nth i inds 0%nat) inds) as Hin by (apply nth_In; exact Hi). unfold inds in Hin at 2. eapply inds_bound. exact Hin. }
  destruct EE. split; apply B; assumption.
Qed.
Lemma interface_bound V l fi o pairs p : get_interface V l fi o = Ok pairs -> In p pairs -> (fst p < length l /\ snd p < length l)%nat.
Proof.
  unfold get_interface. destruct (get_cutoff V (cutoff_opt o) l) as [[c|]|]; try discriminate; cbn [rbind]; [|intros H; injection H as <-; intros []]. destruct (get_radius (radius_opt o) l) as [r|]; [|discriminate]. cbn [rbind].
  destruct (longest_opt o); [|apply walls_bound]. destruct (size fi) as [[bx b_]|]; [|discriminate]. apply longest_bound.
Qed.
