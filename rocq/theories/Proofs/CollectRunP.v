(** Interfaces of successive frames. *)
From Verif.Base Require Import QcX Res Np ListX.
From Verif.Model Require Import Bins Flow Interface Spreading Collect.
From Verif.Spec Require Import SpreadingSpec CollectSpec.
From Verif.Proofs Require Import SpreadingP CollectP.
Local Open Scope list_scope.

Lemma qdiff_nth l : forall i d, nth_error (qdiff l) i = Some d ->
  exists a b, nth_error l i = Some a /\ nth_error l (S i) = Some b /\ d = b - a.
Proof.
  induction l as [|a [|b l] IH]; intros i d H; try (destruct i; discriminate).
  destruct i as [|i]; simpl in H.
  - injection H as <-. exists a, b. auto.
  - destruct (IH i d H) as (x & y & A & B & C). exists x, y. auto.
Qed.
Lemma yindex_regular y0 h b ys : 0 < h -> (2 <= length ys)%nat ->
  (forall i y, nth_error ys i = Some y -> y = y0 + ZQ (b + Z.of_nat i) * h) ->
  get_yindex_data ys = Ok (regular y0 h b (length ys)).
Proof.
  intros Hh Hl Hy. unfold get_yindex_data.
  destruct (unique (qdiff ys)) as [|d u] eqn:U.
  - exfalso. destruct ys as [|a [|a' ys]]; simpl in Hl; try lia.
    assert (In (a' - a) (unique (qdiff (a :: a' :: ys)))) as H by (apply unique_in; simpl; auto). rewrite U in H. destruct H.
  - assert (In d (qdiff ys)) as H by (apply unique_in; rewrite U; simpl; auto).
    apply In_nth_error in H as (i & H). apply qdiff_nth in H as (x & y & A & B & ->).
    apply Hy in A, B. replace (y - x) with h.
    2:{ rewrite A, B. replace (b + Z.of_nat (S i))%Z with (b + Z.of_nat i + 1)%Z by lia. rewrite ZQ_add, ZQ_1. ring. }
    assert (forall i j, (i <= j)%nat -> y0 + ZQ (b + Z.of_nat i) * h <= y0 + ZQ (b + Z.of_nat j) * h) as M.
    { intros i' j' H. pose proof (qmult_ZQ_le h (b + Z.of_nat i') (b + Z.of_nat j') Hh ltac:(lia)) as HM.
      generalize dependent (ZQ (b + Z.of_nat i') * h). generalize dependent (ZQ (b + Z.of_nat j') * h). intros; qlra'. }
    assert (forall i, (i < length ys)%nat -> nth_error ys i = Some (y0 + ZQ (b + Z.of_nat i) * h)) as N.
    { intros k Hk. destruct (nth_error ys k) as [z|] eqn:E; [rewrite (Hy _ _ E); reflexivity|]. apply nth_error_None in E. lia. }
    assert (list_min ys = Some (y0 + ZQ b * h)) as ->.
    { apply list_min_spec. split; [apply (nth_error_In ys 0); rewrite N by lia; do 4 f_equal; lia|].
      intros z Hz. apply In_nth_error in Hz as (k & Hk). rewrite (Hy _ _ Hk). specialize (M 0%nat k ltac:(lia)). rewrite Z.add_0_r in M. exact M. }
    assert (list_max ys = Some (y0 + ZQ (b + Z.of_nat (length ys) - 1) * h)) as ->; [|reflexivity].
    apply list_max_spec. split; [apply (nth_error_In ys (length ys - 1)); rewrite N by lia; do 4 f_equal; lia|].
    intros z Hz. apply In_nth_error in Hz as (k & Hk). rewrite (Hy _ _ Hk).
    assert (k < length ys)%nat by (apply nth_error_Some; congruence).
    replace (b + Z.of_nat (length ys) - 1)%Z with (b + Z.of_nat (length ys - 1))%Z by lia. apply M. lia.
Qed.
Lemma yindex_short ys : (length ys < 2)%nat -> get_yindex_data ys = Err IndexErr.
Proof. destruct ys as [|a [|b ys]]; simpl; intros; try lia; reflexivity. Qed.

(** ** One layer *)
Lemma layer_step box p last q c l r : 0 < box -> offset box p last c -> valid_pos box last -> valid_pos box q ->
  small_step box last q -> one_crosses box last q -> wraps box l (fst q) -> wraps box r (snd q) ->
  offset box (check_and_update p box l r) q c.
Proof.
  intros Hb (l0 & r0 & kl & kr & Hp & A1 & A2 & A3 & A4 & -> & Hm1 & Hm2) HV HVq HS HC (W1 & W2 & kl' & W3) (W4 & W5 & kr' & W6).
  destruct q as [q1 q2]. simpl in W3, W6. subst q1 q2.
  destruct (update_step box p l0 r0 l r kl kr kl' kr') as (B1 & B2 & B3); auto; [lia|].
  assert (kl' = kl \/ kr' = kr)%Z as HK.
  { destruct HC as [(k & K1 & K2)|(k & K1 & K2)]; simpl in K1, K2;
    apply wrap_box in K1; auto; apply wrap_box in K2; auto; subst; auto. }
  specialize (B3 HK). exists l, r, kl', kr'. repeat split; auto; lia.
Qed.
Lemma offset_edges box p q c l r : 0 < box -> offset box p q c -> prev p = Some (l, r) ->
  add_multipliers p box l r = (fst q + ZQ c * box, snd q + ZQ c * box).
Proof.
  intros Hb (l0 & r0 & kl & kr & Hp & A1 & A2 & A3 & A4 & -> & Hm1 & Hm2) E. rewrite E in Hp. injection Hp as -> ->.
  unfold add_multipliers. rewrite Hm1, Hm2, !ZQ_add. simpl. f_equal; ring.
Qed.
Lemma update_prev p box l r : prev (check_and_update p box l r) = Some (l, r).
Proof. unfold check_and_update. destruct (prev p) as [[lp rp]|]; [|reflexivity]. destruct (crossing_event l r lp rp); [|reflexivity].
  destruct (qlt (qabs (r - rp)) (qabs (l - lp))); reflexivity. Qed.
Lemma layer_first box q k l r : 0 < box -> valid_pos box q -> in_box box (fst q) k -> wraps box l (fst q) -> wraps box r (snd q) ->
  offset box (check_and_update init_periodic_info box l r) q (- k).
Proof.
  intros Hb HV HK (W1 & W2 & kl & W3) (W4 & W5 & kr & W6). destruct q as [q1 q2]. simpl in *. subst q1 q2.
  apply wrap_box in HK; auto. subst k. destruct (first_frame box l r kl kr) as (P1 & P2 & P3); auto.
  exists l, r, kl, kr. repeat split; auto.
Qed.

(** ** One frame *)
Definition state_ok (box y0 h : Qc) (c : Z) (f : truth) (st : list (option pinfo) * yindex) : Prop :=
  exists xs, st = (map Some xs, regular y0 h (fst f) (length (snd f))) /\ length xs = length (snd f) /\
    forall i p q, nth_error xs i = Some p -> nth_error (snd f) i = Some q -> offset box p q c.

Lemma combine_nth_error {A B} (l : list A) (m : list B) : forall i,
  nth_error (combine l m) i = match nth_error l i, nth_error m i with Some a, Some b => Some (a, b) | _, _ => None end.
Proof.
  revert m; induction l as [|a l IH]; intros m [|i]; try reflexivity; destruct m as [|b m]; simpl; try reflexivity.
  - destruct (nth_error l i); reflexivity.
  - apply IH.
Qed.
Lemma nth_error_ext {A} (l m : list A) : (forall i, nth_error l i = nth_error m i) -> l = m.
Proof.
  revert m; induction l as [|a l IH]; intros [|b m] H; try reflexivity; try (specialize (H 0%nat); discriminate).
  pose proof (H 0%nat) as H0. simpl in H0. injection H0 as ->. f_equal. apply IH. intros i. apply (H (S i)).
Qed.
Lemma combine_app {A B} (l1 : list A) (m1 : list B) l2 m2 : length l1 = length m1 ->
  combine (l1 ++ l2) (m1 ++ m2) = combine l1 m1 ++ combine l2 m2.
Proof. revert m1; induction l1 as [|a l IH]; intros [|b m] H; simpl in *; try lia; [reflexivity|]. f_equal. apply IH. lia. Qed.
Lemma combine_rev {A B} (l : list A) (m : list B) : length l = length m -> combine (rev l) (rev m) = rev (combine l m).
Proof.
  revert m; induction l as [|a l IH]; intros [|b m] H; simpl in *; try lia; [reflexivity|].
  rewrite combine_app by (rewrite !rev_length; lia). rewrite IH by lia. reflexivity.
Qed.

(** the array with the heights as they are *)
Definition curve_at (ys : list Qc) (ps : list (Qc * Qc)) : list (Qc * Qc) :=
  combine (map fst ps) ys ++ rev (combine (map snd ps) ys).
Lemma create_eq ys ps : length ps = length ys -> create_interface_array ys (map fst ps) (map snd ps) = Ok (curve_at ys ps).
Proof.
  intros H. unfold create_interface_array. rewrite !map_length, H, Nat.eqb_refl. simpl. unfold curve_at. f_equal.
  rewrite combine_app by (rewrite map_length; exact H). rewrite combine_rev by (rewrite map_length; exact H). reflexivity.
Qed.

Definition ys_of (layers : list layer) : list Qc := map (fun p => fst (fst p)) layers.

Lemma frame_update box y0 h c layers f old g : 0 < box -> 0 < h -> shows_layers box y0 h layers f -> (2 <= length (snd f))%nat ->
  resolved y0 h (fst f) -> Forall (valid_pos box) (snd f) ->
  match old with
  | None => exists k, c = (- k)%Z /\ forall q, In q (snd f) -> in_box box (fst q) k
  | Some st => state_ok box y0 h c g st /\ (1 <= length (snd g))%nat /\ Forall (valid_pos box) (snd g) /\ frame_step box g f
  end ->
  exists st, update_interface layers box old = Ok (curve_at (ys_of layers) (moved (ZQ c * box) (snd f)), st) /\ state_ok box y0 h c f st.
Proof.
  intros Hb Hh [HL HS] H2 Hr HV HO. unfold update_interface. fold (ys_of layers). unfold layer in *.
  assert (length (ys_of layers) = length (snd f)) as LY by (unfold ys_of; rewrite map_length; exact HL).
  rewrite (yindex_regular y0 h (fst f)); [|assumption|rewrite LY; assumption|].
  2:{ intros i y Hi. unfold ys_of in Hi. rewrite nth_error_map in Hi. destruct (nth_error layers i) as [[[y' l] r]|] eqn:E; [|discriminate].
      injection Hi as <-. simpl. apply (HS i y' l r) in E. tauto. }
  cbn [rbind]. rewrite LY.
  assert (exists t, transfer_values old (regular y0 h (fst f) (length (snd f))) = Ok t /\ length (fill_pbc t) = length (snd f) /\
    forall i q, nth_error (snd f) i = Some q -> exists p, nth_error (fill_pbc t) i = Some (Some p) /\
      forall l r, wraps box l (fst q) -> wraps box r (snd q) -> offset box (check_and_update p box l r) q c) as (t & Et & Lt & Nt).
  { destruct old as [st|].
    - destruct HO as ((xs & -> & Lx & Hx) & Hg1 & HVg & HF).
      destruct (carried y0 h (fst g) (fst f) (length (snd g)) (length (snd f)) xs) as (t & Et & Lt & Nt); auto; [lia|].
      exists t. split; [exact Et|]. split; [exact Lt|]. intros i q Hi.
      assert (i < length (snd f))%nat as Hi' by (apply nth_error_Some; congruence).
      rewrite Nt by exact Hi'. set (j := Z.to_nat _).
      assert (j < length xs)%nat as Hj. { unfold j. rewrite Lx. unfold nearest. lia. }
      destruct (nth_error xs j) as [p|] eqn:Ep; [|apply nth_error_None in Ep; lia].
      destruct (nth_error (snd g) j) as [q0|] eqn:Eq; [|apply nth_error_None in Eq; lia].
      exists p. split; [reflexivity|]. intros l r Wl Wr.
      destruct (HF i q Hi q0) as [HS1 HC1]; [exact Eq|].
      eapply layer_step; eauto.
      + eapply Forall_forall; [exact HVg|]. apply nth_error_In in Eq. exact Eq.
      + eapply Forall_forall; [exact HV|]. apply nth_error_In in Hi. exact Hi.
    - destruct HO as (k & -> & Hk). exists (repeat None (length (snd f))). split; [reflexivity|]. rewrite fill_none, repeat_length.
      split; [reflexivity|]. intros i q Hi. exists init_periodic_info. split.
      + apply nth_error_repeat_lt. apply nth_error_Some. congruence.
      + intros l r Wl Wr. apply layer_first; auto.
        * eapply Forall_forall; [exact HV|]. apply nth_error_In in Hi. exact Hi.
        * apply Hk. apply nth_error_In in Hi. exact Hi. }
  rewrite Et. cbn [rbind]. match goal with |- context [map ?F (combine (fill_pbc t) layers)] => set (infos := map F (combine (fill_pbc t) layers)) end.
  assert (length infos = length (snd f)) as LI by (unfold infos; rewrite map_length, combine_length; lia).
  assert (forall i q, nth_error (snd f) i = Some q -> exists p y l r, nth_error infos i = Some p /\ nth_error layers i = Some (y, l, r) /\
            prev p = Some (l, r) /\ offset box p q c) as NI.
  { intros i q Hi. destruct (Nt i q Hi) as (p & Hp & HO').
    destruct (nth_error layers i) as [[[y l] r]|] eqn:E; [|apply nth_error_None in E; assert (i < length (snd f))%nat by (apply nth_error_Some; congruence); lia].
    destruct (HS i y l r E) as (_ & q' & Hq' & Wl & Wr). rewrite Hi in Hq'. injection Hq' as <-.
    exists (check_and_update p box l r), y, l, r. unfold infos. rewrite nth_error_map, combine_nth_error, Hp, E. simpl.
    repeat split; auto. apply update_prev. }
  clearbody infos.
  match goal with |- context [create_interface_array _ (map fst ?E) (map snd ?E)] => assert (E = moved (ZQ c * box) (snd f)) as EE end.
  { apply nth_error_ext. intros i. unfold moved. rewrite !nth_error_map, combine_nth_error.
    destruct (nth_error (snd f) i) as [q|] eqn:E.
    - destruct (NI i q E) as (p & y & l & r & -> & -> & Hp & HO'). cbn [option_map fst snd]. f_equal. eapply offset_edges; eauto.
    - apply nth_error_None in E. replace (nth_error infos i) with (@None pinfo); [reflexivity|]. symmetry. apply nth_error_None. lia. }
  rewrite EE, create_eq; [|unfold moved; rewrite map_length; lia]. cbn [rbind]. eexists. split; [reflexivity|].
  exists infos. split; [reflexivity|]. split; [exact LI|]. intros i p q Hi Hq.
  destruct (NI i q Hq) as (p' & y & l & r & Hp' & _ & _ & HO'). congruence.
Qed.

(** ** The heights and the centre *)
Lemma combine_map_l {A B C} (g : A -> C) (l : list A) (m : list B) : combine (map g l) m = map (fun p => (g (fst p), snd p)) (combine l m).
Proof. revert m; induction l as [|a l IH]; intros [|b m]; simpl; try reflexivity. f_equal. apply IH. Qed.

Definition centre (o : recentre) (com : Qc) (p : Qc * Qc) : Qc :=
  match o with Zero => (fst p + snd p) / (1 + 1) | Com => com | OtherOption => 0 end.
Lemma recentre_curve o com cm y0 h b ys ps : (1 <= length ps)%nat -> length ys = length ps ->
  (forall i y, nth_error ys i = Some y -> y = y0 + ZQ (b + Z.of_nat i) * h) -> (o = Com -> com = Ok cm) ->
  recenter o com (curve_at ys ps) = Ok (closed_curve h (moved (- centre o cm (nth 0 ps (0, 0))) ps)).
Proof.
  intros H1 HL Hy Hc. unfold recenter.
  assert (exists p0 ps' z0 ys', ps = p0 :: ps' /\ ys = z0 :: ys') as (p0 & ps' & z0 & ys' & EP & EY).
  { destruct ps as [|p0 ps']; [simpl in H1; lia|]. destruct ys as [|z0 ys']; [simpl in HL; lia|]. eauto 8. }
  assert (nth 0 (curve_at ys ps) (0, 0) = (fst p0, z0)) as ->.
  { rewrite EP, EY. reflexivity. }
  assert (length (curve_at ys ps) = length ps + length ps)%nat as LC.
  { unfold curve_at. rewrite app_length, rev_length, !combine_length, !map_length. lia. }
  assert (nth (length (curve_at ys ps) - 1) (curve_at ys ps) (0, 0) = (snd p0, z0)) as ->.
  { rewrite LC. unfold curve_at. rewrite app_nth2; rewrite combine_length, map_length; [|lia].
    rewrite rev_nth; rewrite combine_length, map_length; [|lia].
    match goal with |- nth ?n _ _ = _ => replace n with 0%nat by lia end. rewrite EP, EY. reflexivity. }
  assert (match o with Zero => Ok (qmean [fst (fst p0, z0); fst (snd p0, z0)]) | Com => com | OtherOption => Ok 0 end
          = Ok (centre o cm (nth 0 ps (0, 0)))) as ->.
  { destruct o; simpl; [|apply Hc; reflexivity|reflexivity]. f_equal. rewrite EP. simpl. unfold qmean. simpl.
    replace (NQ 2) with (1 + 1) by (apply Qc_is_canon; reflexivity). f_equal. ring. }
  cbn [rbind]. f_equal. set (c := centre o cm (nth 0 ps (0, 0))). cbn [snd].
  assert (length (moved (- c) ps) = length ps) as LM by (unfold moved; apply map_length).
  assert (z0 = y0 + ZQ b * h) as Hz. { rewrite (Hy 0%nat z0) by (rewrite EY; reflexivity). do 3 f_equal. lia. }
  unfold closed_curve, curve_at. rewrite LM, map_app. rewrite map_rev. f_equal; [|f_equal].
  - apply nth_error_ext. intros i. rewrite nth_error_map, combine_nth_error, nth_error_map.
    destruct (nth_error ps i) as [p|] eqn:E.
    + assert (i < length ps)%nat as Hi by (apply nth_error_Some; congruence).
      destruct (nth_error ys i) as [y|] eqn:E2; [|apply nth_error_None in E2; lia].
      rewrite nth_error_map_seq by exact Hi. simpl. f_equal.
      rewrite (nth_indep _ _ (fst (0, 0) + - c, snd (0, 0) + - c)) by lia. unfold moved.
      rewrite (map_nth (fun p => (fst p + - c, snd p + - c))). rewrite (nth_error_nth _ _ (0, 0) E). simpl. f_equal.
      rewrite (Hy _ _ E2), Hz, ZQ_add. ring.
    + simpl. symmetry. apply nth_error_None. rewrite map_length, seq_length. apply nth_error_None in E. exact E.
  - apply nth_error_ext. intros i. rewrite nth_error_map, combine_nth_error, nth_error_map.
    destruct (nth_error ps i) as [p|] eqn:E.
    + assert (i < length ps)%nat as Hi by (apply nth_error_Some; congruence).
      destruct (nth_error ys i) as [y|] eqn:E2; [|apply nth_error_None in E2; lia].
      rewrite nth_error_map_seq by exact Hi. simpl. f_equal.
      rewrite (nth_indep _ _ (fst (0, 0) + - c, snd (0, 0) + - c)) by lia. unfold moved.
      rewrite (map_nth (fun p => (fst p + - c, snd p + - c))). rewrite (nth_error_nth _ _ (0, 0) E). simpl. f_equal.
      rewrite (Hy _ _ E2), Hz, ZQ_add. ring.
    + simpl. symmetry. apply nth_error_None. rewrite map_length, seq_length. apply nth_error_None in E. exact E.
Qed.

(** ** All frames *)
Definition layers_of (data : list bin) (pairs : list (nat * nat)) : list layer :=
  map (fun p => (bY (nth (fst p) data bin0), bX (nth (fst p) data bin0), bX (nth (snd p) data bin0))) pairs.
Definition shown (V : bin -> Qc) (cutoff radius : option Qc) (nb : Z) (lims : option Qc * option Qc) (o : recentre) (box y0 h : Qc)
    (m : list bin * finfo) (f : truth * Qc) : Prop :=
  (exists by_, size (snd m) = Some (box, by_)) /\
  (exists pairs, get_interface V (fst m) (snd m) (mkIopts cutoff radius nb true lims) = Ok pairs /\
                 shows_layers box y0 h (layers_of (fst m) pairs) (fst f)) /\
  (o = Com -> np_average (map bX (fst m)) (map V (fst m)) = Ok (snd f)).
Definition good_frame (box y0 h : Qc) (f : truth) : Prop :=
  (2 <= length (snd f))%nat /\ Forall (valid_pos box) (snd f) /\ resolved y0 h (fst f).
Definition final (o : recentre) (box h : Qc) (c : Z) (f : truth * Qc) : list (Qc * Qc) :=
  let ps := moved (ZQ c * box) (snd (fst f)) in closed_curve h (moved (- centre o (snd f) (nth 0 ps (0, 0))) ps).

Lemma run_from V cutoff radius nb lims o box y0 h c : 0 < box -> 0 < h -> forall maps frames old g,
  Forall2 (shown V cutoff radius nb lims o box y0 h) maps frames ->
  Forall (fun f => good_frame box y0 h (fst f)) frames ->
  match old with
  | None => exists k, c = (- k)%Z /\ match frames with f :: _ => forall q, In q (snd (fst f)) -> in_box box (fst q) k | [] => True end
  | Some st => state_ok box y0 h c g st /\ good_frame box y0 h g
  end ->
  frame_steps box ((if old then [g] else []) ++ map fst frames) ->
  collect_interfaces V maps cutoff radius nb lims old o = Ok (map (final o box h c) frames).
Proof.
  intros Hb Hh maps frames old g HF. revert old g.
  induction HF as [|[data fi] [f cm] maps frames ((by_ & Hsz) & (pairs & Hi & Hsh) & Hcom) HF IH]; intros old g HG HO HS; [reflexivity|].
  inversion HG as [|? ? [G1 [G2 G3]] HG']; subst. cbn [fst snd] in *.
  cbn [collect_interfaces]. unfold get_interface_coordinates. rewrite Hi. cbn [rbind].
  destruct (frame_update box y0 h c (layers_of data pairs) f old g) as (st & Eu & Hst); auto.
  { destruct old as [st|]; [|exact HO]. destruct HO as [O1 (O2 & O3 & O4)]. simpl in HS. destruct HS as [S1 S2].
    split; [exact O1|]. split; [lia|]. split; [exact O3|exact S1]. }
  pose proof Hsh as [Hlen Hnth].
  destruct pairs as [|pr pairs]; [simpl in Hlen; lia|].
  rewrite Hsz. cbn [of_option rbind]. unfold layers_of in Eu. rewrite Eu. cbn [rbind].
  rewrite (recentre_curve o _ cm y0 h (fst f)).
  - cbn [rbind]. rewrite (IH (Some st) f).
    + reflexivity.
    + exact HG'.
    + split; [exact Hst|]. split; [exact G1|]. split; [exact G2|exact G3].
    + destruct old; simpl in HS |- *; [destruct HS as [_ HS]|]; exact HS.
  - unfold moved. rewrite map_length. lia.
  - unfold ys_of, moved. rewrite !map_length. unfold layers_of in Hlen. rewrite map_length in Hlen. exact Hlen.
  - intros i y Hi'. change (nth_error (ys_of (layers_of data (pr :: pairs))) i = Some y) in Hi'. unfold ys_of in Hi'. rewrite nth_error_map in Hi'. unfold layer in *.
    assert (exists p, nth_error (layers_of data (pr :: pairs)) i = Some p /\ y = fst (fst p)) as ([[y' l] r] & E & Hy).
    { revert Hi'. unfold layers_of. rewrite !nth_error_map. destruct (nth_error (pr :: pairs) i); simpl; [|discriminate]. intros [= <-]. eexists. split; reflexivity. }
    simpl in Hy. subst y. apply Hnth in E. tauto.
  - exact Hcom.
Qed.

(** ** The array of a single map, for any data *)
Lemma nth_error_rev {A} (l : list A) i : (i < length l)%nat -> nth_error (rev l) (length l - 1 - i) = nth_error l i.
Proof.
  intros H. destruct (nth_error l i) as [a|] eqn:E; [|apply nth_error_None in E; lia].
  assert (length l - 1 - i < length (rev l))%nat as H' by (rewrite rev_length; lia).
  rewrite (nth_error_nth' (rev l) a H'). f_equal. rewrite rev_nth by lia.
  replace (length l - S (length l - 1 - i))%nat with i by lia. apply (nth_error_nth _ _ a E).
Qed.
Lemma array_of layers box old a st : update_interface layers box old = Ok (a, st) ->
  (2 <= length layers)%nat /\ length a = (length layers + length layers)%nat /\
  forall i y l r, nth_error layers i = Some (y, l, r) -> exists kl kr : Z,
    nth_error a i = Some (l + ZQ kl * box, y) /\
    nth_error a (length a - 1 - i) = Some (r + ZQ kr * box, y).
Proof.
  intros H. unfold update_interface in H. fold (ys_of layers) in H.
  destruct (Nat.lt_ge_cases (length layers) 2) as [Hs|H2].
  { rewrite yindex_short in H by (unfold ys_of; rewrite map_length; exact Hs). discriminate. }
  split; [exact H2|].
  destruct (get_yindex_data (ys_of layers)) as [new|]; [|discriminate]. cbn [rbind] in H.
  destruct (transfer_values old new) as [t|]; [|discriminate]. cbn [rbind] in H. unfold layer in *.
  match type of H with context [map ?F (combine (fill_pbc t) layers)] => set (infos := map F (combine (fill_pbc t) layers)) in H end.
  assert (exists n, infos = infos /\ length infos = n) as (n & _ & Ln) by eauto. clearbody infos.
  match type of H with context [create_interface_array _ (map fst ?E) (map snd ?E)] => set (edges := E) in H end.
  assert (length edges = Nat.min n (length layers)) as Le by (unfold edges; rewrite map_length, combine_length, Ln; reflexivity).
  unfold create_interface_array in H. rewrite !map_length in H.
  destruct (Nat.eqb_spec (length edges) (length (ys_of layers))) as [E|E]; [|discriminate]. cbn [andb rbind] in H.
  injection H as <- <-. unfold ys_of in E. rewrite map_length in E.
  assert (length (ys_of layers) = length layers) as Ly by (unfold ys_of; apply map_length).
  rewrite combine_length, !app_length, !rev_length, !map_length, Ly. split; [lia|].
  intros i y l r Hi. assert (i < length layers)%nat as Hil by (apply nth_error_Some; congruence).
  assert (exists p, nth_error infos i = Some p) as (p & Hp).
  { destruct (nth_error infos i) as [p|] eqn:Q; [eauto|]. apply nth_error_None in Q. lia. }
  assert (nth_error edges i = Some (l + ZQ (mleft p) * box, r + ZQ (mright p) * box)) as He.
  { unfold edges. rewrite nth_error_map, combine_nth_error, Hp, Hi. reflexivity. }
  assert (nth_error (ys_of layers) i = Some y) as Hy by (unfold ys_of; rewrite nth_error_map, Hi; reflexivity).
  exists (mleft p), (mright p). rewrite !combine_nth_error. split.
  - rewrite !nth_error_app1 by (try rewrite map_length; lia). rewrite nth_error_map, He, Hy. reflexivity.
  - rewrite !nth_error_app2 by (try rewrite map_length; lia). rewrite map_length, Ly, E.
    match goal with |- context [nth_error (rev (map snd edges)) ?k] => replace k with (length (map snd edges) - 1 - i)%nat by (rewrite map_length; lia) end.
    rewrite nth_error_rev by (rewrite map_length; lia). rewrite map_length, E.
    replace (length layers - 1 - i)%nat with (length (ys_of layers) - 1 - i)%nat by lia.
    rewrite nth_error_rev by lia. rewrite nth_error_map, He, Hy. reflexivity.
Qed.

Lemma recenter_rigid o com a a' : recenter o com a = Ok a' -> exists cx, a' = map (fun p => (fst p - cx, snd p - snd (nth 0 a (0, 0)))) a.
Proof.
  unfold recenter. destruct (match o with Zero => _ | Com => com | OtherOption => _ end) as [c|]; [|discriminate].
  cbn [rbind]. intros [= <-]. exists c. reflexivity.
Qed.

Lemma array_of_map V data fi cutoff radius nb lims old o a st :
  get_interface_coordinates V data fi cutoff radius nb lims old o = Ok (a, st) ->
  exists pairs box by_ cx, get_interface V data fi (mkIopts cutoff radius nb true lims) = Ok pairs /\
    size fi = Some (box, by_) /\ (2 <= length pairs)%nat /\ length a = (length pairs + length pairs)%nat /\
    forall i il ir, nth_error pairs i = Some (il, ir) -> exists kl kr : Z,
      nth_error a i = Some (bX (nth il data bin0) + ZQ kl * box - cx, bY (nth il data bin0) - bY (nth (fst (nth 0 pairs (0, 0)%nat)) data bin0)) /\
      nth_error a (length a - 1 - i) = Some (bX (nth ir data bin0) + ZQ kr * box - cx, bY (nth il data bin0) - bY (nth (fst (nth 0 pairs (0, 0)%nat)) data bin0)).
Proof.
  unfold get_interface_coordinates. destruct (get_interface V data fi _) as [pairs|] eqn:E; [|discriminate]. cbn [rbind].
  destruct pairs as [|p0 pairs]; [discriminate|]. set (prs := p0 :: pairs). intros H.
  destruct (size fi) as [[box by_]|]; [|discriminate]. cbn [of_option rbind] in H.
  fold (layers_of data prs) in H.
  destruct (update_interface (layers_of data prs) box old) as [[arr st']|] eqn:U; [|discriminate]. cbn [rbind] in H.
  destruct (recenter o _ arr) as [arr'|] eqn:R; [|discriminate]. cbn [rbind] in H. injection H as -> ->.
  destruct (array_of _ _ _ _ _ U) as (H2 & HL & HN). apply recenter_rigid in R as (cx & ->).
  assert (length (layers_of data prs) = length prs) as EL by (unfold layers_of; apply map_length).
  exists prs, box, by_, cx. rewrite EL in *. rewrite map_length. split; [reflexivity|]. split; [reflexivity|]. split; [exact H2|]. split; [exact HL|].
  destruct (HN 0%nat (bY (nth (fst p0) data bin0)) (bX (nth (fst p0) data bin0)) (bX (nth (snd p0) data bin0)) eq_refl) as (k0 & _ & N0 & _).
  rewrite (nth_error_nth _ _ (0, 0) N0). cbn [snd].
  intros i il ir Hi.
  destruct (HN i (bY (nth il data bin0)) (bX (nth il data bin0)) (bX (nth ir data bin0))) as (kl & kr & NL & NR).
  { unfold layers_of. rewrite nth_error_map, Hi. reflexivity. }
  exists kl, kr. rewrite !nth_error_map, NL, NR. split; reflexivity.
Qed.

Lemma centred_mass l w c : length l = length w -> np_average l w = Ok c -> np_average (map (fun x => x - c) l) w = Ok 0.
Proof.
  intros HL. unfold np_average. destruct (qeq_spec (qsum w) 0) as [|Hz]; [discriminate|].
  intros [= <-]. f_equal. set (c := qsum (map (fun p => fst p * snd p) (combine l w)) / qsum w).
  assert (forall c (l w : list Qc), length l = length w -> qsum (map (fun p => fst p * snd p) (combine (map (fun x => x - c) l) w)) =
    qsum (map (fun p => fst p * snd p) (combine l w)) - c * qsum w) as G.
  { clear. intros c. induction l as [|x l IH]; intros [|y w] H; simpl in *; try lia; [ring|]. rewrite IH by lia. ring. }
  rewrite G by exact HL. unfold c. field. exact Hz.
Qed.
