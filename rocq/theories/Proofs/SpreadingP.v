(** Unwrapping of periodic trajectories. *)
From Coq Require Import String.
From Verif.Base Require Import QcX Res Np ListX.
From Verif.Model Require Import Bins Flow Interface Spreading.
From Verif.Spec Require Import SpreadingSpec.
Local Open Scope list_scope.

Lemma zbox_lt box a b : 0 < box -> ZQ a * box < ZQ b * box -> (a < b)%Z.
Proof.
  intros Hb H. destruct (Z_lt_le_dec a b) as [|Hn]; [assumption|].
  apply ZQ_le in Hn. pose proof (qmult_le_compat_l _ _ box (qc_lt_le _ _ Hb) Hn) as H1.
  exfalso. replace (box * ZQ b) with (ZQ b * box) in H1 by ring. replace (box * ZQ a) with (ZQ a * box) in H1 by ring.
  generalize dependent (ZQ a * box). generalize dependent (ZQ b * box). intros; qlra.
Qed.
Lemma zbox_succ a box : ZQ (a + 1) * box = ZQ a * box + box.
Proof. rewrite ZQ_add, ZQ_1. ring. Qed.
Lemma zbox_pred a box : ZQ (a - 1) * box = ZQ a * box - box.
Proof. rewrite ZQ_sub, ZQ_1. ring. Qed.

Lemma qmod_wrapped box l m : 0 < box -> 0 <= l -> l < box -> qmod (l + ZQ m * box) box = l.
Proof.
  intros Hb H0 H1. unfold qmod. rewrite (qfloor_unique _ m); [ring| |].
  - apply qle_div_iff; [assumption|]. generalize (ZQ m * box). intros; qlra'.
  - destruct (qc_lt_trich ((l + ZQ m * box) / box) (ZQ m + 1)) as [|H]; [assumption|exfalso].
    assert (ZQ m + 1 <= (l + ZQ m * box) / box) as H2. { destruct H as [->|H]; [apply Qcle_refl|apply qc_lt_le; exact H]. }
    apply qle_div_iff in H2; [|assumption]. replace ((ZQ m + 1) * box) with (ZQ m * box + box) in H2 by ring.
    generalize dependent (ZQ m * box). intros; qlra.
Qed.

Lemma mult_addition_spec box l m : 0 < box -> 0 <= l -> l < box ->
  mult_addition (l + ZQ m * box) box = if qlt box (l + l) then (-1)%Z else 1%Z.
Proof.
  intros Hb H0 H1. unfold mult_addition. rewrite qmod_wrapped by assumption. unfold qabs.
  destruct (qle_spec 0 (box - l)) as [H|H]; [|apply Qcnot_le_lt in H; qlra].
  destruct (qlt_spec (box - l) l) as [A|A]; destruct (qlt_spec box (l + l)) as [B|B]; try reflexivity;
    try apply Qcnot_lt_le in A; try apply Qcnot_lt_le in B; qlra.
Qed.

(** Relation between the boxes of the edges and their order in the box. *)
Lemma order_box box l r kl kr : 0 < box -> 0 <= l -> l < box -> 0 <= r -> r < box ->
  l + ZQ kl * box <= r + ZQ kr * box -> r + ZQ kr * box - (l + ZQ kl * box) < box ->
  (kr - kl = if qlt r l then 1 else 0)%Z.
Proof.
  intros Hb Hl0 Hl1 Hr0 Hr1 H1 H2.
  assert (kl - 1 < kr)%Z as A. { apply (zbox_lt box); [assumption|]. rewrite zbox_pred. generalize dependent (ZQ kr * box). generalize dependent (ZQ kl * box). intros; qlra'. }
  assert (kr < kl + 1 + 1)%Z as B. { apply (zbox_lt box); [assumption|]. rewrite !zbox_succ. generalize dependent (ZQ kr * box). generalize dependent (ZQ kl * box). intros; qlra'. }
  assert (kr = kl \/ kr = kl + 1)%Z as [-> | ->] by lia; [|rewrite zbox_succ in H1, H2];
    destruct (qlt_spec r l) as [C|C]; try lia; try apply Qcnot_lt_le in C; exfalso; clear A B;
    generalize dependent (ZQ kl * box); intros; qlra.
Qed.
Lemma step_box box l l' k k' : 0 < box -> 0 <= l -> l < box -> 0 <= l' -> l' < box ->
  qabs (l' + ZQ k' * box - (l + ZQ k * box)) + qabs (l' + ZQ k' * box - (l + ZQ k * box)) < box ->
  (k' = k /\ qabs (l' - l) + qabs (l' - l) < box) \/
   (k' = (k + 1)%Z /\ l' + l' < box /\ box < qabs (l' - l) + qabs (l' - l)) \/
   (k' = (k - 1)%Z /\ box < l' + l' /\ box < qabs (l' - l) + qabs (l' - l)).
Proof.
  intros Hb Hl0 Hl1 Hr0 Hr1 H.
  assert (k - 1 - 1 < k')%Z as A.
  { apply (zbox_lt box); [assumption|]. rewrite !zbox_pred. unfold qabs in H. destruct (qle_spec 0 (l' + ZQ k' * box - (l + ZQ k * box))) as [C|C]; [|apply Qcnot_le_lt in C];
    generalize dependent (ZQ k * box); generalize dependent (ZQ k' * box); intros; qlra'. }
  assert (k' < k + 1 + 1)%Z as B.
  { apply (zbox_lt box); [assumption|]. rewrite !zbox_succ. unfold qabs in H. destruct (qle_spec 0 (l' + ZQ k' * box - (l + ZQ k * box))) as [C|C]; [|apply Qcnot_le_lt in C];
    generalize dependent (ZQ k * box); generalize dependent (ZQ k' * box); intros; qlra'. }
  assert (k' = k \/ k' = k + 1 \/ k' = k - 1)%Z as [-> | [-> | ->]] by lia; clear A B.
  - left. split; [reflexivity|]. replace (l' + ZQ k * box - (l + ZQ k * box)) with (l' - l) in H by ring. exact H.
  - right. left. split; [reflexivity|]. rewrite zbox_succ in H.
    replace (l' + (ZQ k * box + box) - (l + ZQ k * box)) with (l' - l + box) in H by ring.
    unfold qabs in *. destruct (qle_spec 0 (l' - l + box)) as [C|C]; [|apply Qcnot_le_lt in C; qlra].
    destruct (qle_spec 0 (l' - l)) as [D|D]; [|apply Qcnot_le_lt in D]; split; qlra'.
  - right. right. split; [reflexivity|]. rewrite zbox_pred in H.
    replace (l' + (ZQ k * box - box) - (l + ZQ k * box)) with (l' - l - box) in H by ring.
    unfold qabs in *. destruct (qle_spec 0 (l' - l - box)) as [C|C]; [qlra|apply Qcnot_le_lt in C].
    destruct (qle_spec 0 (l' - l)) as [D|D]; [|apply Qcnot_le_lt in D]; split; qlra'.
Qed.

Lemma qlt_of x y : x < y -> qlt x y = true. Proof. apply qlt_true. Qed.
Lemma qlt_not x y : y <= x -> qlt x y = false. Proof. apply qlt_false. Qed.

Lemma update_step box p l r l' r' kl kr kl' kr' : 0 < box ->
  0 <= l -> l < box -> 0 <= r -> r < box -> 0 <= l' -> l' < box -> 0 <= r' -> r' < box ->
  valid_pos box (l + ZQ kl * box, r + ZQ kr * box) -> valid_pos box (l' + ZQ kl' * box, r' + ZQ kr' * box) ->
  small_step box (l + ZQ kl * box, r + ZQ kr * box) (l' + ZQ kl' * box, r' + ZQ kr' * box) ->
  prev p = Some (l, r) -> (mright p - mleft p = kr - kl)%Z ->
  let p' := check_and_update p box l' r' in
  prev p' = Some (l', r') /\ (mright p' - mleft p' = kr' - kl')%Z /\
  ((kl' = kl \/ kr' = kr)%Z -> (mleft p' - mleft p = kl' - kl)%Z).
Proof.
  intros Hb Hl0 Hl1 Hr0 Hr1 Hl0' Hl1' Hr0' Hr1' [V1 V2] [V1' V2'] [S1 S2] Hp Hm. simpl in *.
  pose proof (order_box box l r kl kr Hb Hl0 Hl1 Hr0 Hr1 V1 V2) as O.
  pose proof (order_box box l' r' kl' kr' Hb Hl0' Hl1' Hr0' Hr1' V1' V2') as O'.
  pose proof (step_box box l l' kl kl' Hb Hl0 Hl1 Hl0' Hl1' S1) as SL.
  pose proof (step_box box r r' kr kr' Hb Hr0 Hr1 Hr0' Hr1' S2) as SR.
  clear S1 S2 V1 V2 V1' V2'. unfold check_and_update. rewrite Hp, !mult_addition_spec by assumption. unfold crossing_event.
  destruct (qlt r' l') eqn:Q1; destruct (qlt r l) eqn:Q2; cbn [xorb].
  - simpl. repeat split; lia.
  - destruct SL as [(EL & SL) | [(EL & SL1 & SL) | (EL & SL1 & SL)]], SR as [(ER & SR) | [(ER & SR1 & SR) | (ER & SR1 & SR)]]; try (exfalso; lia).
    + rewrite (qlt_not (qabs (r' - r))) by (generalize dependent (qabs (r' - r)); generalize dependent (qabs (l' - l)); intros; qlra').
      rewrite (qlt_not box) by qlra'. simpl. repeat split; lia.
    + rewrite (qlt_of (qabs (r' - r))) by (generalize dependent (qabs (r' - r)); generalize dependent (qabs (l' - l)); intros; qlra').
      rewrite (qlt_of box) by qlra'. simpl. repeat split; lia.
  - destruct SL as [(EL & SL) | [(EL & SL1 & SL) | (EL & SL1 & SL)]], SR as [(ER & SR) | [(ER & SR1 & SR) | (ER & SR1 & SR)]]; try (exfalso; lia).
    + rewrite (qlt_not (qabs (r' - r))) by (generalize dependent (qabs (r' - r)); generalize dependent (qabs (l' - l)); intros; qlra').
      rewrite (qlt_of box) by qlra'. simpl. repeat split; lia.
    + rewrite (qlt_of (qabs (r' - r))) by (generalize dependent (qabs (r' - r)); generalize dependent (qabs (l' - l)); intros; qlra').
      rewrite (qlt_not box) by qlra'. simpl. repeat split; lia.
  - simpl. repeat split; lia.
Qed.

(** ** Whole runs *)
Definition detected (f : frame) : bool := match f_edges f with Some _ => true | None => false end.
Definition shows (box : Qc) (f : frame) (p : Qc * Qc) : Prop :=
  f_box f = box /\ exists l r, f_edges f = Some (l, r) /\ wraps box l (fst p) /\ wraps box r (snd p).

Definition the_rows (x : list row * list line * bool) : list row := fst (fst x).
Definition the_lines (x : list row * list line * bool) : list line := snd (fst x).

Lemma collect_loop_none f rest i dt t p save impact : f_edges f = None ->
  collect_loop (f :: rest) i dt t p save impact = collect_loop rest (S i) dt t p save impact.
Proof. intros H. cbn [collect_loop]. rewrite H. reflexivity. Qed.

Definition row_of (p : pinfo) (box t l r : Qc) : row :=
  let a := add_multipliers (check_and_update p box l r) box l r in
  mkRow t (qabs (Q2Qc (1 # 2) * (snd a - fst a))) (fst a) (snd a).
Lemma collect_loop_rows_some f rest i dt t p save impact l r : f_edges f = Some (l, r) ->
  the_rows (collect_loop (f :: rest) i dt t p save impact) =
  row_of p (f_box f) t l r ::
  the_rows (collect_loop rest (S i) dt (t + dt) (check_and_update p (f_box f) l r) save (impact || save)).
Proof.
  intros H. cbn [collect_loop]. rewrite H. unfold add_multipliers.
  destruct (collect_loop rest (S i) dt (t + dt) (check_and_update p (f_box f) l r) save (impact || save)) as [[rs ls] im].
  reflexivity.
Qed.

Lemma row_radius p box t l r kl kr : let p' := check_and_update p box l r in
  (mright p' - mleft p' = kr - kl)%Z -> l + ZQ kl * box <= r + ZQ kr * box ->
  r_r (row_of p box t l r) = Q2Qc (1 # 2) * (r + ZQ kr * box - (l + ZQ kl * box)).
Proof.
  intros p' H Hle. unfold row_of, add_multipliers; cbn [r_r fst snd]. fold p'.
  replace (r + ZQ (mright p') * box - (l + ZQ (mleft p') * box)) with (r + ZQ kr * box - (l + ZQ kl * box)).
  - generalize dependent (r + ZQ kr * box). generalize dependent (l + ZQ kl * box). intros a b Hab.
    unfold qabs. destruct (qle_spec 0 (Q2Qc (1 # 2) * (b - a))) as [C|C]; [reflexivity|apply Qcnot_le_lt in C; qlra].
  - assert (mright p' = mleft p' + kr - kl)%Z as -> by lia. rewrite ZQ_sub, ZQ_add. ring.
Qed.

Definition invariant (box : Qc) (p : pinfo) (last : Qc * Qc) : Prop :=
  exists l r kl kr, prev p = Some (l, r) /\ 0 <= l /\ l < box /\ 0 <= r /\ r < box /\
    last = (l + ZQ kl * box, r + ZQ kr * box) /\ (mright p - mleft p = kr - kl)%Z.
(* the offset of the multipliers from the true boxes *)
Definition offset (box : Qc) (p : pinfo) (last : Qc * Qc) (c : Z) : Prop :=
  exists l r kl kr, prev p = Some (l, r) /\ 0 <= l /\ l < box /\ 0 <= r /\ r < box /\
    last = (l + ZQ kl * box, r + ZQ kr * box) /\ (mleft p = kl + c /\ mright p = kr + c)%Z.
Definition radius_ok (rw : row) (p : Qc * Qc) : Prop := r_r rw = Q2Qc (1 # 2) * (snd p - fst p).
Definition edges_ok (box : Qc) (c : Z) (rw : row) (p : Qc * Qc) : Prop :=
  r_left rw = fst p + ZQ c * box /\ r_right rw = snd p + ZQ c * box.

Lemma loop_radius box : 0 < box -> forall frames traj p last i dt t save impact,
  invariant box p last -> valid_pos box last -> Forall (valid_pos box) traj -> steps (small_step box) (last :: traj) ->
  Forall2 (shows box) (filter detected frames) traj ->
  Forall2 radius_ok (the_rows (collect_loop frames i dt t p save impact)) traj.
Proof.
  intros Hb. induction frames as [|f frames IH]; intros traj p last i dt t save impact HI HV HT HS HF.
  - simpl in HF. inversion HF. constructor.
  - cbn [filter] in HF. unfold detected at 1 in HF. destruct (f_edges f) as [[l' r']|] eqn:E.
    2:{ rewrite collect_loop_none by assumption. eapply IH; eauto. }
    rewrite (collect_loop_rows_some _ _ _ _ _ _ _ _ _ _ E).
    inversion HF as [|? q ? traj' H1 H2]; subst. inversion HT as [|? ? HVq HT']; subst.
    destruct H1 as (Hbx & lx & rx & El & (W1 & W2 & kl' & W3) & (W4 & W5 & kr' & W6)).
    rewrite E in El. injection El as <- <-. rewrite Hbx.
    destruct HI as (l & r & kl & kr & Hp & A1 & A2 & A3 & A4 & A5 & Hm).
    destruct q as [q1 q2]. simpl in W3, W6. subst q1 q2 last. destruct HS as [HS1 HS2].
    destruct (update_step box p l r l' r' kl kr kl' kr') as (B1 & B2 & B3); auto.
    constructor.
    + unfold radius_ok. destruct HVq. apply row_radius; assumption.
    + eapply IH; eauto. unfold invariant. exists l', r', kl', kr'. repeat split; auto.
Qed.

Lemma wrap_box box l k k' : 0 < box -> 0 <= l -> l < box -> in_box box (l + ZQ k * box) k' -> k' = k.
Proof.
  intros Hb H0 H1 [A B].
  assert (k' < k + 1)%Z. { apply (zbox_lt box); [assumption|]. rewrite zbox_succ. generalize dependent (ZQ k * box). generalize dependent (ZQ k' * box). intros; qlra'. }
  assert (k < k' + 1)%Z. { apply (zbox_lt box); [assumption|]. rewrite zbox_succ. generalize dependent (ZQ k * box). generalize dependent (ZQ k' * box). intros; qlra'. }
  lia.
Qed.

Lemma loop_edges box c : 0 < box -> forall frames traj p last i dt t save impact,
  offset box p last c -> valid_pos box last -> Forall (valid_pos box) traj -> steps (small_step box) (last :: traj) ->
  steps (one_crosses box) (last :: traj) ->
  Forall2 (shows box) (filter detected frames) traj ->
  Forall2 (edges_ok box c) (the_rows (collect_loop frames i dt t p save impact)) traj.
Proof.
  intros Hb. induction frames as [|f frames IH]; intros traj p last i dt t save impact HI HV HT HS HC HF.
  - simpl in HF. inversion HF. constructor.
  - cbn [filter] in HF. unfold detected at 1 in HF. destruct (f_edges f) as [[l' r']|] eqn:E.
    2:{ rewrite collect_loop_none by assumption. eapply IH; eauto. }
    rewrite (collect_loop_rows_some _ _ _ _ _ _ _ _ _ _ E).
    inversion HF as [|? q ? traj' H1 H2]; subst. inversion HT as [|? ? HVq HT']; subst.
    destruct H1 as (Hbx & lx & rx & El & (W1 & W2 & kl' & W3) & (W4 & W5 & kr' & W6)).
    rewrite E in El. injection El as <- <-. rewrite Hbx.
    destruct HI as (l & r & kl & kr & Hp & A1 & A2 & A3 & A4 & A5 & Hm1 & Hm2).
    destruct q as [q1 q2]. simpl in W3, W6. subst q1 q2 last. destruct HS as [HS1 HS2]. destruct HC as [HC1 HC2].
    destruct (update_step box p l r l' r' kl kr kl' kr') as (B1 & B2 & B3); auto; [lia|].
    assert (kl' = kl \/ kr' = kr)%Z as HK.
    { destruct HC1 as [(k & K1 & K2)|(k & K1 & K2)]; simpl in K1, K2;
      apply wrap_box in K1; auto; apply wrap_box in K2; auto; subst; auto. }
    specialize (B3 HK).
    assert (mleft (check_and_update p box l' r') = kl' + c /\ mright (check_and_update p box l' r') = kr' + c)%Z as [M1 M2] by lia.
    constructor.
    + unfold edges_ok, row_of, add_multipliers; cbn [r_left r_right fst snd]. rewrite M1, M2, !ZQ_add. split; ring.
    + eapply IH; eauto. exists l', r', kl', kr'. repeat split; auto.
Qed.

Lemma first_frame box l r kl kr : 0 < box -> 0 <= l -> l < box -> 0 <= r -> r < box ->
  valid_pos box (l + ZQ kl * box, r + ZQ kr * box) ->
  let p := check_and_update init_periodic_info box l r in
  prev p = Some (l, r) /\ (mleft p = kl + - kl /\ mright p = kr + - kl)%Z.
Proof.
  intros Hb H0 H1 H2 H3 [V1 V2]. simpl in V1, V2.
  pose proof (order_box box l r kl kr Hb H0 H1 H2 H3 V1 V2) as O. simpl. destruct (qlt r l); repeat split; lia.
Qed.

Lemma collect_rows frames dt t0 save impact :
  the_rows (collect frames dt t0 save impact) = the_rows (collect_loop frames 0 dt t0 init_periodic_info save impact).
Proof. unfold collect. destruct (collect_loop frames 0 dt t0 init_periodic_info save impact) as [[a b] c]. reflexivity. Qed.

Lemma loop_first box frames traj dt t save impact : 0 < box -> trajectory box traj ->
  Forall2 (shows box) (filter detected frames) traj -> forall i,
  Forall2 radius_ok (the_rows (collect_loop frames i dt t init_periodic_info save impact)) traj /\
  (steps (one_crosses box) traj -> exists c, Forall2 (edges_ok box c) (the_rows (collect_loop frames i dt t init_periodic_info save impact)) traj).
Proof.
  intros Hb [HT HS]. revert traj HT HS. induction frames as [|f frames IH]; intros traj HT HS HF i.
  - simpl in HF. inversion HF. split; [constructor|intros _; exists 0%Z; constructor].
  - cbn [filter] in HF. unfold detected at 1 in HF. destruct (f_edges f) as [[l r]|] eqn:E.
    2:{ rewrite collect_loop_none by assumption. apply IH; auto. }
    rewrite (collect_loop_rows_some _ _ _ _ _ _ _ _ _ _ E).
    inversion HF as [|? q ? traj' H1 H2]; subst. inversion HT as [|? ? HVq HT']; subst.
    destruct H1 as (Hbx & lx & rx & El & (W1 & W2 & kl & W3) & (W4 & W5 & kr & W6)).
    rewrite E in El. injection El as <- <-. rewrite Hbx.
    destruct q as [q1 q2]. simpl in W3, W6. subst q1 q2.
    destruct (first_frame box l r kl kr) as (P1 & P2 & P3); auto.
    split.
    + constructor.
      * unfold radius_ok. destruct HVq. apply row_radius; auto. lia.
      * eapply loop_radius; eauto. exists l, r, kl, kr. repeat split; auto. lia.
    + intros HC. exists (- kl)%Z. constructor.
      * unfold edges_ok, row_of, add_multipliers; cbn [r_left r_right fst snd]. rewrite P2, P3, !ZQ_add. split; ring.
      * eapply loop_edges; eauto. exists l, r, kl, kr. repeat split; auto.
Qed.

Lemma collect_radius box frames traj dt t0 save impact : 0 < box -> trajectory box traj ->
  Forall2 (shows box) (filter detected frames) traj ->
  Forall2 radius_ok (the_rows (collect frames dt t0 save impact)) traj.
Proof. intros. rewrite collect_rows. eapply loop_first; eauto. Qed.
Lemma collect_edges box frames traj dt t0 save impact : 0 < box -> trajectory box traj -> steps (one_crosses box) traj ->
  Forall2 (shows box) (filter detected frames) traj ->
  exists c, Forall2 (edges_ok box c) (the_rows (collect frames dt t0 save impact)) traj.
Proof. intros Hb HT HC HF. rewrite collect_rows. eapply loop_first; eauto. Qed.

(** ** Times and output *)
Lemma loop_times frames : forall i dt t p save impact,
  map r_t (the_rows (collect_loop frames i dt t p save impact)) =
  map (fun k => t + NQ k * dt) (seq 0 (List.length (filter detected frames))).
Proof.
  induction frames as [|f frames IH]; intros; [reflexivity|]. cbn [filter]. unfold detected at 1.
  destruct (f_edges f) as [[l r]|] eqn:E.
  - rewrite (collect_loop_rows_some _ _ _ _ _ _ _ _ _ _ E). cbn [List.length seq map]. rewrite IH.
    f_equal; [simpl; rewrite NQ_0; ring|]. rewrite <- seq_shift, map_map. apply map_ext. intros k. rewrite NQ_S. ring.
  - rewrite collect_loop_none by assumption. apply IH.
Qed.

Definition line_of (rw : row) : line := LRow (r_t rw) (r_r rw) (r_left rw) (r_right rw).
Fixpoint first_detected (frames : list frame) (i : nat) : option (nat * string) :=
  match frames with
  | [] => None
  | f :: rest => match f_edges f with Some _ => Some (i, f_path f) | None => first_detected rest (S i) end
  end.
Lemma loop_lines frames : forall i dt t p impact,
  the_lines (collect_loop frames i dt t p true impact) =
  (if impact then [] else match first_detected frames i with Some (k, pth) => [LImpact (NQ k * dt) pth] | None => [] end)
  ++ map line_of (the_rows (collect_loop frames i dt t p true impact)).
Proof.
  induction frames as [|f frames IH]; intros; [destruct impact; reflexivity|].
  cbn [first_detected]. destruct (f_edges f) as [[l r]|] eqn:E.
  - pose proof (IH (S i) dt (t + dt) (check_and_update p (f_box f) l r) (impact || true)%bool) as IH'.
    cbn [collect_loop]. rewrite E. unfold add_multipliers.
    destruct (collect_loop frames (S i) dt (t + dt) (check_and_update p (f_box f) l r) true (impact || true)) as [[rs ls] im] eqn:EC.
    unfold the_lines, the_rows in *. simpl in *. rewrite IH'. rewrite orb_true_r. destruct impact; reflexivity.
  - rewrite collect_loop_none by assumption. apply IH.
Qed.
Lemma loop_flag frames : forall i dt t p save impact,
  snd (collect_loop frames i dt t p save impact) = (impact || (save && existsb detected frames))%bool.
Proof.
  induction frames as [|f frames IH]; intros; [simpl; destruct impact, save; reflexivity|].
  cbn [existsb]. unfold detected at 1. destruct (f_edges f) as [[l r]|] eqn:E.
  - cbn [collect_loop]. rewrite E. unfold add_multipliers.
    specialize (IH (S i) dt (t + dt) (check_and_update p (f_box f) l r) save (impact || save)%bool).
    destruct (collect_loop frames (S i) dt (t + dt) (check_and_update p (f_box f) l r) save (impact || save)) as [[rs ls] im].
    simpl in *. rewrite IH. destruct impact, save; reflexivity.
  - rewrite collect_loop_none by assumption. apply IH.
Qed.

(** ** Edges of the lowest or floor layer *)
From Verif.Base Require Import Sort.
From Verif.Spec Require Import FlowSpec InterfaceSpec.
From Verif.Proofs Require Import FlowP LongestRunP InterfaceP.

Lemma nth_x_of data i b : nth_error data i = Some b -> bX (nth i data bin0) = x_of data i.
Proof. intros H. unfold x_of. rewrite H. rewrite (nth_error_nth _ _ _ H). reflexivity. Qed.
Lemma stretch_in V data box cutoff r nb y il ir : layer_stretch V data box cutoff r nb y il ir ->
  in_layer data y il /\ in_layer data y ir.
Proof.
  intros (cells & flags & a & b & H1 & _ & _ & _ & Ha & Hb).
  split; apply H1; eapply nth_error_In; eauto.
Qed.

Section Edges.
Variables (V : bin -> Qc) (cutoff r : Qc).
Hypothesis Vx : forall b d, V (shift_x d b) = V b.
Variables (box by_ : Qc) (fi : finfo) (data : list bin) (nb : Z).
Hypothesis Hr : 0 <= r.
Hypothesis Hrb : r <= box.
Hypothesis Hsize : size fi = Some (box, by_).
Hypothesis HD : layers_in_order data box.

Lemma edges_lowest : exists e, get_spreading_edges V data fi (Some cutoff) (Some r) nb true None = Ok e /\
  match e with
  | None => forall y, ~ wet_layer V data box cutoff r nb y
  | Some (xl, xr) => exists y il ir, wet_layer V data box cutoff r nb y /\
      (forall y', wet_layer V data box cutoff r nb y' -> y <= y') /\
      layer_stretch V data box cutoff r nb y il ir /\ xl = x_of data il /\ xr = x_of data ir
  end.
Proof.
  destruct HD as [D1 D2].
  destruct (longest_spec V cutoff r Vx box Hr Hrb data nb None None D1 D2) as (pairs & ys & E & Hinc & Hys & HF).
  unfold get_spreading_edges, get_floor_height. simpl. unfold get_interface. simpl. rewrite Hsize, E. simpl.
  destruct HF as [|y p ys ps Hp HF].
  - simpl. eexists. split; [reflexivity|]. intros y H. apply (Hys y). split; [split; intros a [=]|exact H].
  - destruct p as [l rr]. simpl. eexists. split; [reflexivity|]. simpl.
    destruct (stretch_in V data box cutoff r nb y l rr Hp) as [(bl & Hl & _) (br & Hr' & _)].
    exists y, l, rr. split; [apply (Hys y); simpl; auto|]. split; [|split; [exact Hp|]].
    + intros y' Hy'. assert (In y' (y :: ys)) as HI. { apply Hys. split; [split; intros a [=]|exact Hy']. }
      destruct HI as [->|HI]; [apply Qcle_refl|]. inversion Hinc; subst. apply qc_lt_le. auto.
    + split; eapply nth_x_of; eauto.
Qed.

Lemma edges_floor f y : get_floor_height (Some f) (map bY data) = Ok (Some y) ->
  exists e, get_spreading_edges V data fi (Some cutoff) (Some r) nb true (Some f) = Ok e /\
  match e with
  | None => ~ wet_layer V data box cutoff r nb y
  | Some (xl, xr) => exists il ir, wet_layer V data box cutoff r nb y /\
      layer_stretch V data box cutoff r nb y il ir /\ xl = x_of data il /\ xr = x_of data ir
  end.
Proof.
  intros Hf. destruct HD as [D1 D2].
  destruct (longest_spec V cutoff r Vx box Hr Hrb data nb (Some y) (Some y) D1 D2) as (pairs & ys & E & Hinc & Hys & HF).
  unfold get_spreading_edges. rewrite Hf. simpl. unfold get_interface. simpl. rewrite Hsize, E. simpl.
  destruct HF as [|y' p ys ps Hp HF].
  - simpl. eexists. split; [reflexivity|]. intros H. apply (Hys y). split; [|exact H]. split; intros a [= <-]; apply Qcle_refl.
  - assert (y' = y) as ->. { destruct (proj1 (Hys y') (or_introl eq_refl)) as [[A B] _]. specialize (A y eq_refl). specialize (B y eq_refl). qlra'. }
    destruct p as [l rr]. simpl.
    destruct (stretch_in V data box cutoff r nb y l rr Hp) as [(bl & Hl & Hyl) (br & Hr' & _)].
    replace (bY (nth l data bin0)) with y by (rewrite (nth_error_nth _ _ bin0 Hl); auto). rewrite qeq_refl. eexists. split; [reflexivity|]. simpl.
    exists l, rr. split; [apply (Hys y); simpl; auto|]. split; [exact Hp|].
    split; eapply nth_x_of; eauto.
Qed.
End Edges.

(** ** The floor layer *)
Definition above (f y : Qc) : Prop := f < y /\ y <= f + 1.
Lemma floor_zero f y : qabs (ZQ (qceil (y - f)) - 1) <= 0 <-> above f y.
Proof.
  unfold above. split.
  - intros H. pose proof (qabs_nonneg (ZQ (qceil (y - f)) - 1)) as H0.
    pose proof (qceil_spec (y - f)) as [C1 C2]. generalize dependent (ZQ (qceil (y - f))). intros z H H0 C1 C2.
    assert (z = 1) as ->. { unfold qabs in *. destruct (qle 0 (z - 1)); qlra'. } split; qlra'.
  - intros [H1 H2]. rewrite (qceil_unique _ 1) by (rewrite ZQ_1; qlra'). rewrite ZQ_1. replace (1 - 1) with 0 by ring. apply Qcle_refl.
Qed.
Lemma floor_height f ys y : get_floor_height (Some f) ys = Ok (Some y) ->
  exists k, nth_error ys k = Some y /\
    ((exists y', In y' ys /\ above f y') ->
     above f y /\ forall j y', (j < k)%nat -> nth_error ys j = Some y' -> ~ above f y').
Proof.
  unfold get_floor_height. set (g := fun y => qabs (ZQ (qceil (y - f)) - 1)). destruct (argmin _) as [k|] eqn:E; simpl; [|discriminate]. intros H. injection H as H.
  pose proof (argmin_lt _ _ E) as Hk. rewrite map_length in Hk. exists k.
  assert (nth_error ys k = Some y) as Hy. { subst y. apply nth_error_nth'. assumption. }
  split; [assumption|]. intros (y' & Hy' & HA).
  destruct (argmin_spec _ _ E) as (z & Hz & Hmin & Hfirst).
  rewrite nth_error_map, Hy in Hz. simpl in Hz. injection Hz as <-.
  assert (above f y) as A. { apply floor_zero. fold (g y). specialize (Hmin (g y') (in_map g _ _ Hy')). apply floor_zero in HA. fold (g y') in HA. qlra'. }
  split; [assumption|]. intros j w Hj Hw Aw. apply floor_zero in Aw. fold (g w) in Aw.
  specialize (Hfirst j (g w) Hj). rewrite nth_error_map, Hw in Hfirst. specialize (Hfirst eq_refl).
  pose proof (qabs_nonneg (ZQ (qceil (y - f)) - 1)) as H0. fold (g y) in H0. qlra.
Qed.
Lemma floor_exists f ys : ys <> [] -> exists y, get_floor_height (Some f) ys = Ok (Some y).
Proof.
  intros H. unfold get_floor_height. destruct (argmin_some (map (fun y => qabs (ZQ (qceil (y - f)) - 1)) ys)) as (k & ->).
  - destruct ys; [congruence|discriminate].
  - simpl. eauto.
Qed.
