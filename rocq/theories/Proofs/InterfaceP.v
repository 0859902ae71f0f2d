From Coq Require Import Permutation.
From Verif.Base Require Import QcX Res Np Sort ListX.
From Verif.Model Require Import Bins Flow Interface.
From Verif.Spec Require Import FlowSpec InterfaceSpec.
From Verif.Proofs Require Import FlowP LongestRunP.

(** ** Numbers and records *)
Lemma sq_bound x r : 0 <= r -> x * x <= r * r -> - r <= x <= r.
Proof.
  intros Hr H. split.
  - destruct (qc_total (- r) x) as [|H1]; auto. destruct (Qc_eq_dec x (-r)) as [->|N]; [qlra'|].
    exfalso. assert (x < - r) as H2. { destruct (qc_lt_trich x (-r)) as [|[|]]; auto; [congruence|qlra]. }
    clear H1 N. qnra.
  - destruct (qc_total x r) as [|H1]; auto. destruct (Qc_eq_dec x r) as [->|N]; [qlra'|].
    exfalso. assert (r < x) as H2. { destruct (qc_lt_trich x r) as [|[|]]; auto; [qlra|congruence]. }
    clear H1 N. qnra.
Qed.
Lemma sq_nonneg (x : Qc) : 0 <= x * x.
Proof. qnra. Qed.
Lemma beq_spec a b : reflect (a = b) (beq a b).
Proof.
  apply iff_reflect. unfold beq. rewrite !andb_true_iff, !qeq_true. destruct a, b; simpl.
  split; [intros [= -> -> -> -> -> -> ->]; tauto | intros [[[[[[-> ->] ->] ->] ->] ->] ->]; auto].
Qed.
Lemma find_record_spec b l : In b l -> exists k, find_record b l = Ok k /\ nth_error l k = Some b.
Proof.
  induction l as [|c l IH]; simpl; [tauto|]. intros H. destruct (beq_spec c b) as [->|N].
  - exists 0%nat; auto.
  - destruct H as [->|H]; [congruence|]. destruct (IH H) as (k & -> & E). exists (S k); auto.
Qed.

(** ** Counting *)
Lemma count_remove (P : nat -> bool) c l : NoDup l -> In c l -> P c = true ->
  S (length (filter (fun j => negb (Nat.eqb j c) && P j)%bool l)) = length (filter P l).
Proof.
  induction l as [|x l IH]; intros ND H HP; [destruct H|]. inversion ND; subst. simpl.
  destruct H as [->|H].
  - rewrite Nat.eqb_refl, HP. simpl. f_equal. f_equal. apply filter_ext_in. intros j Hj.
    destruct (Nat.eqb_spec j c); auto. subst; contradiction.
  - destruct (Nat.eqb_spec x c); [subst; contradiction|]. simpl.
    destruct (P x); simpl; rewrite <- (IH H3 H HP); auto.
Qed.
Lemma count_nth {A} (Q : A -> bool) l d : length (filter (fun j => Q (nth j l d)) (seq 0 (length l))) = length (filter Q l).
Proof.
  induction l as [|x l IH]; auto. cbn [length seq filter nth].
  rewrite <- seq_shift. 
  assert (forall (P : nat -> bool) m, length (filter P (map S m)) = length (filter (fun j => P (S j)) m)) as G.
  { intros P m. induction m; simpl; auto. destruct (P (S a)); simpl; auto. }
  destruct (Q x); simpl; rewrite G; auto.
Qed.
Lemma filter_and {A} (p q : A -> bool) l : filter q (filter p l) = filter (fun x => p x && q x)%bool l.
Proof. induction l; simpl; auto. destruct (p a); simpl; rewrite IHl; auto. Qed.

Section P.
Variable V : bin -> Qc.
Variables cutoff r : Qc.

(** liquid bins within [r] of the image of [b] *)
Definition counts (b : bin) (d : Qc) (c : bin) : bool := (qle cutoff (V c) && qle (dist2 b c d) (r * r))%bool.
Definition incl (b : bin) (system : list bin) : nat := length (filter (counts b 0) system).

Lemma counts_spec b d c : counts b d c = true <-> cutoff <= V c /\ dist2 b c d <= r * r.
Proof. unfold counts. rewrite andb_true_iff, !qle_true. tauto. Qed.
Lemma dist2_self b : dist2 b b 0 = 0.
Proof. unfold dist2. ring. Qed.
Lemma counts_self b : cutoff <= V b -> counts b 0 b = true.
Proof. intro H. apply counts_spec. split; auto. rewrite dist2_self. apply sq_nonneg. Qed.

Lemma neighbours_count cell system b nb : nth_error system cell = Some b -> cutoff <= V b ->
  (Z.leb nb (Z.of_nat (length (filter (fun j => qle cutoff (V (nth j system bin0))) (indices_in_radius cell system r))))
   = Z.leb (nb + 1) (Z.of_nat (incl b system))).
Proof.
  intros Hb HV. assert (cell < length system)%nat as Hc by (apply nth_error_Some; congruence).
  assert (nth cell system bin0 = b) as Nb by (apply nth_error_nth; auto).
  assert (S (length (filter (fun j => qle cutoff (V (nth j system bin0))) (indices_in_radius cell system r))) = incl b system) as E.
  { unfold incl. rewrite <- (count_nth _ system bin0).
    etransitivity; [|apply (count_remove (fun j => counts b 0 (nth j system bin0)) cell)].
    - unfold indices_in_radius. rewrite Nb, !filter_and. f_equal. f_equal. apply filter_ext. intro j.
      unfold counts, dist2. set (c := nth j system bin0).
      replace (sq (bX c - bX b) + sq (bY c - bY b)) with
        ((bX c + 0 - bX b) * (bX c + 0 - bX b) + (bY c - bY b) * (bY c - bY b)) by (unfold sq; ring).
      destruct (qle (sq (bX c - bX b)) (sq r)) eqn:E1.
      + destruct (qle (_ + _) (r * r)) eqn:E2; unfold sq in *; rewrite ?E2; simpl; destruct (Nat.eqb j cell), (qle cutoff (V c)); reflexivity.
      + assert (qle ((bX c + 0 - bX b) * (bX c + 0 - bX b) + (bY c - bY b) * (bY c - bY b)) (r * r) = false) as ->.
        { apply qle_false. apply qle_false in E1. unfold sq in E1. pose proof (sq_nonneg (bY c - bY b)).
          replace (bX c + 0 - bX b) with (bX c - bX b) by ring. qlra'. }
        simpl. destruct (Nat.eqb j cell), (qle cutoff (V c)); reflexivity.
    - apply seq_NoDup.
    - apply in_seq. lia.
    - rewrite Nb. apply counts_self; auto. }
  rewrite <- E. apply eq_true_iff_eq. rewrite !Z.leb_le. lia.
Qed.

Definition good (nb : Z) (system : list bin) (b : bin) : bool :=
  (qle cutoff (V b) && Z.leb (nb + 1) (Z.of_nat (incl b system)))%bool.
Lemma cell_is_droplet_good cell system b nb : nth_error system cell = Some b ->
  cell_is_droplet V cell system r cutoff nb = good nb system b.
Proof.
  intros Hb. unfold cell_is_droplet, good.
  rewrite (nth_error_nth _ _ bin0 Hb). destruct (qle cutoff (V b)) eqn:E; auto. cbn [andb].
  apply neighbours_count; auto. apply qle_true; auto.
Qed.
Lemma droplet_cell_good data nb i b : nth_error data i = Some b ->
  (droplet_cell V data cutoff r nb i <-> good nb data b = true).
Proof.
  intros Hb. unfold good, droplet_cell. rewrite andb_true_iff, qle_true, Z.leb_le.
  assert (i < length data)%nat as Hi by (apply nth_error_Some; congruence).
  set (js0 := filter (fun j => negb (Nat.eqb j i) && counts b 0 (nth j data bin0))%bool (seq 0 (length data))).
  assert (forall j, In j js0 <-> j <> i /\ exists c, nth_error data j = Some c /\ cutoff <= V c /\ dist2 b c 0 <= r * r) as H0.
  { intro j. unfold js0. rewrite filter_In, in_seq, andb_true_iff, negb_true_iff, Nat.eqb_neq, counts_spec. split.
    - intros (Hj & N & HV & HD). split; auto. exists (nth j data bin0). split; auto. apply nth_error_nth'. lia.
    - intros (N & c & Hc & HV & HD). rewrite (nth_error_nth _ _ bin0 Hc).
      assert (j < length data)%nat by (apply nth_error_Some; congruence). repeat split; auto; lia. }
  assert (NoDup js0) as N0 by (apply NoDup_filter, seq_NoDup).
  assert (cutoff <= V b -> S (length js0) = incl b data) as E.
  { intro HV. unfold js0, incl. rewrite <- (count_nth _ data bin0). apply count_remove.
    - apply seq_NoDup. - apply in_seq; lia. - rewrite (nth_error_nth _ _ bin0 Hb). apply counts_self; auto. }
  split.
  - intros (b' & js & Hb' & HV & ND & HJ & HN). assert (b' = b) as -> by congruence. split; auto.
    assert (length js = length js0) as L.
    { apply Permutation_length, NoDup_Permutation; auto. intro j. rewrite HJ, H0. tauto. }
    rewrite L in HN. specialize (E HV). lia.
  - intros [HV HN]. exists b, js0. specialize (E HV). repeat split; auto; try apply H0; auto. lia.
Qed.

(** ** Sorted layers *)
Lemma bin_le_total x y : bin_le x y = true \/ bin_le y x = true.
Proof. apply lexle_total. Qed.
Lemma bin_le_trans x y z : bin_le x y = true -> bin_le y z = true -> bin_le x z = true.
Proof. apply lexle_trans. Qed.
Lemma bin_le_antisym x y : bin_le x y = true -> bin_le y x = true -> x = y.
Proof.
  intros H H'. pose proof (lexle_antisym _ _ H H') as E. unfold bin_key in E. destruct x, y; simpl in E. congruence.
Qed.
Lemma bin_le_x x y : bin_le x y = true -> bX x <= bX y.
Proof. unfold bin_le, bin_key. rewrite lexle_cons. intros [H|[-> _]]; qlra'. Qed.
Lemma bin_lt_le x y : bX x < bX y -> bin_le x y = true.
Proof. unfold bin_le, bin_key. rewrite lexle_cons. auto. Qed.

Lemma sorted_app_inv {A} (le : A -> A -> bool) l m : sorted le (l ++ m) ->
  (forall x y, In x l -> In y m -> le x y = true) /\ sorted le l /\ sorted le m.
Proof.
  induction l as [|x l IH]; simpl; intros S.
  - split; [intros ? ? []|]. split; [constructor|auto].
  - inversion S; subst. destruct (IH H2) as (A1 & A2 & A3). split; [|split; auto].
    + intros u v [<-|Hu] Hv; auto. apply H1. apply in_or_app; auto.
    + constructor; auto. intros y Hy. apply H1. apply in_or_app; auto.
Qed.

Lemma traverse_spec nb layer data : (forall b, In b layer -> In b data) ->
  match find (good nb data) layer with
  | None => traverse_layer V layer data r cutoff nb = Ok None
  | Some b => exists k, traverse_layer V layer data r cutoff nb = Ok (Some k) /\ nth_error data k = Some b
  end.
Proof.
  induction layer as [|b layer IH]; intros H; simpl; auto.
  destruct (find_record_spec b data (H b (or_introl eq_refl))) as (k & -> & Hk). simpl rbind.
  rewrite (cell_is_droplet_good _ _ _ nb Hk). destruct (good nb data b); eauto.
  apply IH. intros; apply H; right; auto.
Qed.
Lemma find_some_split {A} (p : A -> bool) l b : find p l = Some b ->
  exists l1 l2, l = l1 ++ b :: l2 /\ p b = true /\ forall x, In x l1 -> p x = false.
Proof.
  induction l as [|x l IH]; simpl; [discriminate|]. destruct (p x) eqn:E.
  - intros [= <-]. exists [], l. repeat split; auto. intros ? [].
  - intro H. destruct (IH H) as (l1 & l2 & -> & Hb & N). exists (x :: l1), l2. repeat split; auto.
    intros y [<-|Hy]; auto.
Qed.
Lemma find_sorted_min p l b : sorted bin_le l -> find p l = Some b ->
  p b = true /\ In b l /\ forall c, In c l -> p c = true -> bX b <= bX c.
Proof.
  intros S F. destruct (find_some_split _ _ _ F) as (l1 & l2 & -> & Hb & N). split; auto.
  split; [apply in_or_app; simpl; auto|]. intros c Hc Hp. apply in_app_or in Hc as [Hc|[<-|Hc]].
  - rewrite N in Hp; auto; discriminate.
  - qlra'.
  - apply sorted_app_inv in S as (_ & _ & S). inversion S; subst. apply bin_le_x. auto.
Qed.
Lemma find_sorted_max p l b : sorted bin_le l -> find p (rev l) = Some b ->
  p b = true /\ In b l /\ forall c, In c l -> p c = true -> bX c <= bX b.
Proof.
  intros S F. destruct (find_some_split _ _ _ F) as (l1 & l2 & E & Hb & N). split; auto.
  assert (l = rev l2 ++ b :: rev l1) as El.
  { rewrite <- (rev_involutive l), E, rev_app_distr. simpl. rewrite <- app_assoc. reflexivity. }
  subst l. split; [apply in_or_app; simpl; auto|]. intros c Hc Hp. apply in_app_or in Hc as [Hc|[<-|Hc]].
  - apply sorted_app_inv in S as (S & _ & _). apply bin_le_x. apply S; simpl; auto.
  - qlra'.
  - rewrite N in Hp; [discriminate|]. apply in_rev; auto.
Qed.

(** Layers with a result. *)
Lemma rmapM_select {B} (f : Qc -> res (list B)) (R : Qc -> B -> Prop) (N : Qc -> Prop) l : increasing l ->
  (forall a, In a l -> (f a = Ok [] /\ N a) \/ exists b, f a = Ok [b] /\ R a b) ->
  exists bs sel, rmap (@concat _) (rmapM f l) = Ok bs /\ increasing sel /\ Forall2 R sel bs /\
    (forall a, In a sel -> In a l) /\ (forall a, In a l -> In a sel \/ N a).
Proof.
  induction 1 as [|x l Hx Hl IH]; intros H.
  - exists [], []. simpl. repeat split; auto; try constructor; intros ? [].
  - destruct IH as (bs & sel & E & Inc & F & S1 & S2). { intros; apply H; right; auto. }
    unfold rmap in E. destruct (rmapM f l) as [ls|] eqn:EL; simpl in E; [|discriminate]. inversion E; subst bs. clear E.
    destruct (H x (or_introl eq_refl)) as [[Hf HN]|(b & Hf & HR)].
    + exists (concat ls), sel. simpl. rewrite Hf; simpl. rewrite EL; simpl. repeat split; auto.
      intros a [<-|Ha]; auto.
    + exists (b :: concat ls), (x :: sel). simpl. rewrite Hf; simpl. rewrite EL; simpl. repeat split; auto.
      * constructor; auto.
      * intros a [<-|Ha]; auto.
      * intros a [<-|Ha]; auto. destruct (S2 a Ha); auto.
Qed.
Lemma filter_increasing p l : increasing l -> increasing (filter p l).
Proof.
  induction 1; simpl; [constructor|]. destruct (p x); auto. constructor; auto. intros y Hy.
  apply filter_In in Hy. apply H. tauto.
Qed.
Lemma yvalues_spec ys lo hi y : In y (get_yvalues ys lo hi) <-> In y ys /\ inside lo hi y.
Proof. unfold get_yvalues. rewrite filter_In, unique_in, within_spec. tauto. Qed.
Lemma yvalues_inc ys lo hi : increasing (get_yvalues ys lo hi).
Proof. apply filter_increasing, unique_inc. Qed.

(** ** Search from the walls *)
Lemma incl_filter data b : incl b (filter (fun c => qle cutoff (V c)) data) = incl b data.
Proof.
  unfold incl. rewrite filter_and. f_equal. apply filter_ext. intro c. unfold counts.
  destruct (qle cutoff (V c)); reflexivity.
Qed.
Lemma map_filter_seq {A} (q : A -> bool) l d : map (fun i => nth i l d) (filter (fun i => q (nth i l d)) (seq 0 (length l))) = filter q l.
Proof.
  induction l as [|x l IH]; auto. cbn [length seq filter nth].
  rewrite <- seq_shift.
  assert (forall (P : nat -> bool) m, map (fun i => nth i (x :: l) d) (filter P (map S m)) = map (fun i => nth i l d) (filter (fun j => P (S j)) m)) as G.
  { intros P m. induction m; simpl; auto. destruct (P (S a)); simpl; auto. f_equal; auto. }
  destruct (q x); cbn [map]; rewrite G; cbn [nth]; rewrite IH; auto.
Qed.

Lemma walls_spec all nb lo hi :
  exists pairs ys, interface_walls V all r cutoff nb lo hi = Ok pairs /\ increasing ys /\
    (forall y, In y ys <-> inside lo hi y /\ exists i, in_layer all y i /\ droplet_cell V all cutoff r nb i) /\
    Forall2 (fun y p => leftmost all (droplet_cell V all cutoff r nb) y (fst p) /\
                        rightmost all (droplet_cell V all cutoff r nb) y (snd p)) ys pairs.
Proof.
  set (D := droplet_cell V all cutoff r nb).
  unfold interface_walls. set (idx := filter (fun i => qle cutoff (V (nth i all bin0))) (seq 0 (length all))).
  assert (map (fun i => nth i all bin0) idx = filter (fun c => qle cutoff (V c)) all) as ED by (apply (map_filter_seq (fun c => qle cutoff (V c)))).
  rewrite ED. set (data := filter (fun c => qle cutoff (V c)) all) in *.
  (* facts on records *)
  assert (forall b, good nb data b = good nb all b) as G.
  { intro b. unfold good, data. rewrite incl_filter. reflexivity. }
  assert (forall k b, nth_error data k = Some b -> nth_error all (nth k idx 0%nat) = Some b) as Back.
  { intros k b Hk. rewrite <- ED, nth_error_map in Hk. destruct (nth_error idx k) as [i|] eqn:Ei; [|discriminate].
    simpl in Hk. inversion Hk as [Hb]. rewrite (nth_error_nth _ _ 0%nat Ei). apply nth_error_nth'.
    apply nth_error_In in Ei. unfold idx in Ei. apply filter_In in Ei as [Ei _]. apply in_seq in Ei. lia. }
  assert (forall i, D i -> exists b, nth_error all i = Some b /\ In b data /\ good nb all b = true) as DG.
  { intros i Hi. pose proof Hi as Hi'. destruct Hi as (b & js & Hb & HV & _). exists b. split; auto. split.
    - unfold data. apply filter_In. split; [eapply nth_error_In; eauto | apply qle_true; auto].
    - apply (droplet_cell_good all nb i b Hb). auto. }
  match goal with |- context [rmapM ?F _] => set (body := F) end.
  destruct (rmapM_select body
    (fun y p => leftmost all D y (fst p) /\ rightmost all D y (snd p))
    (fun y => ~ exists i, in_layer all y i /\ D i) (get_yvalues (map bY data) lo hi) (yvalues_inc _ _ _))
    as (bs & sel & E & Inc & F & S1 & S2).
  - intros y _. unfold body. set (layer := isort bin_le (filter (fun b => qeq (bY b) y) data)).
    assert (sorted bin_le layer) as SL by (apply isort_sorted; [apply bin_le_total | apply bin_le_trans]).
    assert (forall b, In b layer <-> In b data /\ bY b = y) as IL.
    { intro b. unfold layer. rewrite isort_in, filter_In, qeq_true. tauto. }
    pose proof (traverse_spec nb layer data ltac:(intros b Hb; apply IL in Hb; tauto)) as TL.
    pose proof (traverse_spec nb (rev layer) data ltac:(intros b Hb; apply in_rev, IL in Hb; tauto)) as TR.
    destruct (find (good nb data) layer) as [b|] eqn:FL.
    + destruct TL as (k & -> & Hk). simpl rbind.
      destruct (find (good nb data) (rev layer)) as [b'|] eqn:FR.
      2:{ exfalso. pose proof (find_some _ _ FL) as [H1 H2]. apply in_rev in H1.
          pose proof (find_none _ _ FR b H1). congruence. }
      destruct TR as (k' & -> & Hk'). simpl rbind. right. eexists; split; [reflexivity|]. simpl.
      destruct (find_sorted_min _ _ _ SL FL) as (Gb & Ib & Mb).
      destruct (find_sorted_max _ _ _ SL FR) as (Gb' & Ib' & Mb').
      apply IL in Ib, Ib'. rewrite G in Gb, Gb'.
      pose proof (Back _ _ Hk) as Bk. pose proof (Back _ _ Hk') as Bk'.
      assert (forall j c, D j -> nth_error all j = Some c -> bY c = y -> In c layer /\ good nb data c = true) as Cand.
      { intros j c Hj Hc Hy. destruct (DG j Hj) as (c' & Hc' & Ic & Gc). assert (c' = c) as -> by congruence.
        split; [apply IL; auto | rewrite G; auto]. }
      split; split; [apply (droplet_cell_good all nb _ b); auto | | apply (droplet_cell_good all nb _ b'); auto | ].
      * split; [exists b; tauto|]. intros j Hj (c & Hc & Hy). destruct (Cand j c Hj Hc Hy) as [C1 C2].
        unfold x_of. rewrite Bk, Hc. auto.
      * split; [exists b'; tauto|]. intros j Hj (c & Hc & Hy). destruct (Cand j c Hj Hc Hy) as [C1 C2].
        unfold x_of. rewrite Bk', Hc. auto.
    + left. rewrite TL. simpl. split; auto. intros (i & (c & Hc & Hy) & Hi).
      destruct (DG i Hi) as (c' & Hc' & Ic & Gc). assert (c' = c) as -> by congruence.
      pose proof (find_none _ _ FL c ltac:(apply IL; auto)). rewrite G in *. congruence.
  - exists bs, sel. split; [exact E|]. split; auto. split; auto.
    intro y. split.
    + intro Hy. pose proof (S1 y Hy) as Hin. apply yvalues_spec in Hin as [_ Hin]. split; auto.
      destruct (In_nth_error _ _ Hy) as [k Hk]. apply Forall2_nth in F as [FL F].
      destruct (nth_error bs k) as [p|] eqn:Ep.
      * destruct (F k y p Hk Ep) as [(A1 & A2 & _) _]. eauto.
      * apply nth_error_None in Ep. assert (k < length sel)%nat by (apply nth_error_Some; congruence). lia.
    + intros [Hin (i & (c & Hc & Hy) & Hi)].
      destruct (S2 y) as [|N]; auto.
      * apply yvalues_spec. split; auto. destruct (DG i Hi) as (c' & Hc' & Ic & _).
        assert (c' = c) as -> by congruence. subst y. apply in_map; auto.
      * exfalso. apply N. exists i. split; auto. exists c; auto.
Qed.

(** ** Periodic search *)
Hypothesis Vx : forall b d, V (shift_x d b) = V b.

Lemma counts_shift b c d d' : counts b d (shift_x d' c) = counts b (d + d') c.
Proof.
  unfold counts. rewrite Vx. f_equal. f_equal. unfold dist2, shift_x; simpl. ring.
Qed.
Lemma filter_shift b d l : length (filter (counts b 0) (map (shift_x d) l)) = length (filter (counts b d) l).
Proof.
  induction l; simpl; auto. rewrite counts_shift. replace (0 + d) with d by ring.
  destruct (counts b d a); simpl; auto.
Qed.
Lemma filter_weaker {A} (p q : A -> bool) l : (forall x, In x l -> p x = true -> q x = true) -> filter p (filter q l) = filter p l.
Proof.
  intro H. rewrite filter_and. apply filter_ext_in. intros x Hx. specialize (H x Hx).
  destruct (p x), (q x); simpl; auto.
Qed.

Variable box : Qc.
Hypothesis Hr : 0 <= r.
Hypothesis Hrb : r <= box.

Lemma counts_yslice b d c : counts b d c = true -> in_yslice (bY b) r c = true.
Proof.
  rewrite counts_spec. intros [_ H]. unfold dist2 in H. unfold in_yslice. rewrite andb_true_iff, !qle_true.
  pose proof (sq_nonneg (bX c + d - bX b)). assert ((bY c - bY b) * (bY c - bY b) <= r * r) as H1.
  { revert H H0. generalize ((bX c + d - bX b) * (bX c + d - bX b)), ((bY c - bY b) * (bY c - bY b)), (r * r). qlra'. }
  apply sq_bound in H1; auto. destruct H1. split; qlra'.
Qed.
Lemma counts_dx b d c : counts b d c = true -> - r <= bX c + d - bX b <= r.
Proof.
  rewrite counts_spec. intros [_ H]. unfold dist2 in H.
  pose proof (sq_nonneg (bY c - bY b)). apply sq_bound; auto.
  revert H H0. generalize ((bX c + d - bX b) * (bX c + d - bX b)), ((bY c - bY b) * (bY c - bY b)), (r * r). qlra'.
Qed.
Definition img (k : Z) (b : bin) (data : list bin) : nat := length (filter (counts b (ZQ k * box)) data).
Lemma incl_yslice data b : (forall c, In c data -> 0 <= bX c /\ bX c < box) -> In b data ->
  incl b (yslice_data data box (bY b) r) = (img 0 b data + img 1 b data + img (-1) b data)%nat.
Proof.
  intros HX Hb. unfold incl, yslice_data, pbc_data. rewrite filter_app, app_length.
  rewrite filter_weaker by (intros; eapply counts_yslice; eauto).
  rewrite filter_weaker by (intros; eapply counts_yslice; eauto).
  rewrite filter_app, app_length, !filter_shift.
  rewrite filter_weaker. rewrite filter_weaker.
  - unfold img. replace (ZQ 0 * box) with 0 by (rewrite ZQ_0; ring).
    replace (ZQ 1 * box) with box by (rewrite ZQ_1; ring).
    replace (ZQ (-1) * box) with (- box) by (change (-1)%Z with (- (1))%Z; rewrite ZQ_opp, ZQ_1; ring). lia.
  - intros c Hc H. apply counts_dx in H. destruct H. destruct (HX c Hc), (HX b Hb). apply qle_true. qlra'.
  - intros c Hc H. apply counts_dx in H. destruct H. destruct (HX c Hc), (HX b Hb). apply qle_true. qlra'.
Qed.
Lemma far_images data b c k : (forall c, In c data -> 0 <= bX c /\ bX c < box) -> In b data -> In c data ->
  counts b (ZQ k * box) c = true -> k = 0%Z \/ k = 1%Z \/ k = (-1)%Z.
Proof.
  intros HX Hb Hc H. apply counts_dx in H. destruct H. destruct (HX c Hc) as [C1 C2], (HX b Hb) as [B1 B2].
  assert (0 < box) by qlra'.
  assert (-2 < k < 2)%Z; [|lia].
  split.
  - apply Z.nle_gt. intro K. apply ZQ_le in K. assert (ZQ k * box <= ZQ (-2) * box) as K1.
    { rewrite !(Qcmult_comm _ box). apply qmult_le_compat_l; auto. apply qc_lt_le; auto. }
    assert (ZQ (-2) * box = - box - box) as K2 by (change (-2)%Z with (- (1 + 1))%Z; rewrite ZQ_opp, ZQ_add, ZQ_1; ring).
    qlra.
  - apply Z.nle_gt. intro K. apply ZQ_le in K. assert (ZQ 2 * box <= ZQ k * box) as K1.
    { rewrite !(Qcmult_comm _ box). apply qmult_le_compat_l; auto. apply qc_lt_le; auto. }
    assert (ZQ 2 * box = box + box) as K2 by (change 2%Z with (1 + 1)%Z; rewrite ZQ_add, ZQ_1; ring).
    qlra.
Qed.

Definition pgood (nb : Z) (data : list bin) (b : bin) : bool := good nb (yslice_data data box (bY b) r) b.
Lemma periodic_droplet_good data nb i b : (forall c, In c data -> 0 <= bX c /\ bX c < box) -> nth_error data i = Some b ->
  (periodic_droplet_cell V data box cutoff r nb i <-> pgood nb data b = true).
Proof.
  intros HX Hb. unfold pgood, good, periodic_droplet_cell. rewrite andb_true_iff, qle_true, Z.leb_le.
  assert (In b data) as Ib by (eapply nth_error_In; eauto).
  rewrite (incl_yslice data b HX Ib).
  assert (i < length data)%nat as Hi by (apply nth_error_Some; congruence).
  set (sel := fun k : Z => map (fun j => (j, k)) (filter (fun j => counts b (ZQ k * box) (nth j data bin0)) (seq 0 (length data)))).
  set (js0 := map (fun j => (j, 0%Z)) (filter (fun j => negb (Nat.eqb j i) && counts b (ZQ 0 * box) (nth j data bin0))%bool (seq 0 (length data)))
              ++ sel 1%Z ++ sel (-1)%Z).
  assert (forall j (k k' : Z) P, In (j, k) (map (fun j => (j, k')) (filter P (seq 0 (length data)))) <-> k = k' /\ P j = true /\ (j < length data)%nat) as Hin.
  { intros j k k' P. rewrite in_map_iff. setoid_rewrite filter_In. setoid_rewrite in_seq. split.
    - intros (j' & [= <- <-] & (_ & ?) & ?). repeat split; auto; lia.
    - intros (-> & HP & Hj). exists j. repeat split; auto; lia. }
  assert (forall j k, In (j, k) js0 <-> (j, k) <> (i, 0%Z) /\ exists c, nth_error data j = Some c /\ cutoff <= V c /\ dist2 b c (ZQ k * box) <= r * r) as H0.
  { intros j k. unfold js0, sel. rewrite !in_app_iff, !Hin. split.
    - intros H. assert ((j, k) <> (i, 0%Z) /\ counts b (ZQ k * box) (nth j data bin0) = true /\ (j < length data)%nat) as (N & C & L).
      { destruct H as [(-> & H & L)|[(-> & H & L)|(-> & H & L)]].
        - apply andb_true_iff in H as [H1 H2]. apply negb_true_iff, Nat.eqb_neq in H1. repeat split; auto. congruence.
        - repeat split; auto. discriminate.
        - repeat split; auto. discriminate. }
      split; auto. exists (nth j data bin0). apply counts_spec in C. split; auto. apply nth_error_nth'; auto.
    - intros (N & c & Hc & HV & HD). assert (j < length data)%nat as L by (apply nth_error_Some; congruence).
      rewrite (nth_error_nth _ _ bin0 Hc).
      assert (counts b (ZQ k * box) c = true) as C by (apply counts_spec; auto).
      destruct (far_images data b c k HX Ib (nth_error_In _ _ Hc) C) as [-> | [-> | ->]].
      + left. repeat split; auto. rewrite C, andb_true_r. apply negb_true_iff, Nat.eqb_neq. congruence.
      + right; left. auto.
      + right; right. auto. }
  assert (NoDup js0) as N0.
  { assert (forall P (k : Z), NoDup (map (fun j => (j, k)) (filter P (seq 0 (length data))))) as ND.
    { intros P k. apply FinFun.Injective_map_NoDup; [intros x y [= ->]; auto|]. apply NoDup_filter, seq_NoDup. }
    assert (forall l m : list (nat * Z), NoDup l -> NoDup m -> (forall x, In x l -> ~ In x m) -> NoDup (l ++ m)) as NDapp.
    { induction l as [|x l IH]; simpl; intros m H1 H2 H3; auto. inversion H1; subst. constructor.
      - rewrite in_app_iff. intros [|]; [contradiction|]. eapply H3; eauto.
      - apply IH; auto. }
    unfold js0, sel. apply NDapp; [apply ND| |].
    - apply NDapp; auto. intros [j k] H1 H2. apply Hin in H1, H2. destruct H1 as [-> _], H2 as [H2 _]. discriminate.
    - intros [j k] H1 H2. apply in_app_or in H2 as [H2|H2]; apply Hin in H1, H2; destruct H1 as [-> _], H2 as [H2 _]; discriminate. }
  assert (cutoff <= V b -> S (length js0) = (img 0 b data + img 1 b data + img (-1) b data)%nat) as E.
  { intro HV. unfold js0, sel, img. rewrite !app_length, !map_length, !(count_nth _ data bin0).
    rewrite <- (count_nth (counts b (ZQ 0 * box)) data bin0).
    rewrite <- (count_remove (fun j => counts b (ZQ 0 * box) (nth j data bin0)) i); [lia| | |].
    - apply seq_NoDup. - apply in_seq; lia.
    - rewrite (nth_error_nth _ _ bin0 Hb). replace (ZQ 0 * box) with 0 by (rewrite ZQ_0; ring). apply counts_self; auto. }
  split.
  - intros (b' & js & Hb' & HV & ND & HJ & HN). assert (b' = b) as -> by congruence. split; auto.
    assert (length js = length js0) as L.
    { apply Permutation_length, NoDup_Permutation; auto. intros [j k]. rewrite HJ, H0. tauto. }
    rewrite L in HN. specialize (E HV). lia.
  - intros [HV HN]. exists b, js0. specialize (E HV). repeat split; auto; try apply H0; auto. lia.
Qed.

Lemma filled_spec data nb y layer : (forall b, In b layer -> In b data /\ bY b = y) ->
  filled_cells V layer (yslice_data data box y r) r cutoff nb = Ok (map (pgood nb data) layer).
Proof.
  intros H. unfold filled_cells. induction layer as [|b layer IH]; auto.
  simpl. destruct (H b (or_introl eq_refl)) as [Ib Hy].
  assert (In b (yslice_data data box y r)) as Iy.
  { unfold yslice_data. apply in_or_app. left. apply filter_In. split; auto. subst y. unfold in_yslice.
    rewrite andb_true_iff, !qle_true. split; qlra'. }
  destruct (find_record_spec b _ Iy) as (k & -> & Hk). simpl rbind.
  rewrite (cell_is_droplet_good _ _ _ nb Hk). rewrite IH by (intros; apply H; right; auto). simpl.
  unfold pgood. rewrite Hy. reflexivity.
Qed.

(** The cells of layer [y] in the order of their number. *)
Definition layer_cells (data : list bin) (y : Qc) : list nat :=
  filter (fun i => qeq (bY (nth i data bin0)) y) (seq 0 (length data)).
Lemma layer_cells_spec data y i : In i (layer_cells data y) <-> in_layer data y i.
Proof.
  unfold layer_cells, in_layer. rewrite filter_In, in_seq, qeq_true. split.
  - intros [H E]. exists (nth i data bin0). split; auto. apply nth_error_nth'. lia.
  - intros (b & Hb & E). rewrite (nth_error_nth _ _ bin0 Hb).
    assert (i < length data)%nat by (apply nth_error_Some; congruence). split; auto; lia.
Qed.
Lemma seq_filter_lt P n : forall a i j x y, (i < j)%nat -> nth_error (filter P (seq a n)) i = Some x ->
  nth_error (filter P (seq a n)) j = Some y -> (x < y)%nat.
Proof.
  induction n as [|n IH]; intros a i j x y Hij Hx Hy; [destruct i; discriminate|].
  simpl in Hx, Hy. destruct (P a).
  - destruct j; [lia|]. simpl in Hy. destruct i; simpl in Hx.
    + inversion Hx; subst. apply nth_error_In, filter_In in Hy as [Hy _]. apply in_seq in Hy. lia.
    + eapply (IH (S a) i j); eauto; lia.
  - eapply (IH (S a) i j); eauto.
Qed.

Lemma longest_spec data nb lo hi :
  (forall c, In c data -> 0 <= bX c /\ bX c < box) ->
  (forall i j b c, (i < j)%nat -> nth_error data i = Some b -> nth_error data j = Some c -> bY b = bY c -> bX b < bX c) ->
  exists pairs ys, interface_longest V data box r cutoff nb lo hi = Ok pairs /\ increasing ys /\
    (forall y, In y ys <-> inside lo hi y /\ exists i, in_layer data y i /\ periodic_droplet_cell V data box cutoff r nb i) /\
    Forall2 (fun y p => exists cells flags a b,
      (forall i, In i cells <-> in_layer data y i) /\
      (forall k l i j, (k < l)%nat -> nth_error cells k = Some i -> nth_error cells l = Some j -> x_of data i < x_of data j) /\
      Forall2 (fun i f => f = true <-> periodic_droplet_cell V data box cutoff r nb i) cells flags /\
      longest_run flags a b /\ nth_error cells a = Some (fst p) /\ nth_error cells b = Some (snd p)) ys pairs.
Proof.
  intros HX HO. set (D := periodic_droplet_cell V data box cutoff r nb).
  unfold interface_longest. match goal with |- context [rmapM ?F _] => set (body := F) end.
  assert (forall y, exists flags, Forall2 (fun i f => f = true <-> D i) (layer_cells data y) flags /\
     body y = match find_edges flags with None => Ok []
       | Some (a, b) => Ok [(nth a (layer_cells data y) 0%nat, nth b (layer_cells data y) 0%nat)] end) as HB.
  { intro y. set (cells := layer_cells data y). set (layer := map (fun i => nth i data bin0) cells).
    exists (map (pgood nb data) layer). split.
    - unfold layer. rewrite map_map. apply Forall2_nth. rewrite map_length. split; auto.
      intros k i f Hi Hf. rewrite nth_error_map, Hi in Hf. simpl in Hf. inversion Hf; subst f. clear Hf.
      pose proof (nth_error_In _ _ Hi) as Hin. apply layer_cells_spec in Hin as (b & Hb & _).
      rewrite (nth_error_nth _ _ bin0 Hb). symmetry. apply periodic_droplet_good; auto.
    - unfold body. fold (layer_cells data y). fold cells. fold layer.
      assert (isort bin_le layer = layer) as ->.
      { apply isort_id; [apply bin_le_total | apply bin_le_trans | apply bin_le_antisym|].
        assert (forall cs, (forall i, In i cs -> in_layer data y i) ->
           (forall k l i j, (k < l)%nat -> nth_error cs k = Some i -> nth_error cs l = Some j -> (i < j)%nat) ->
           sorted bin_le (map (fun i => nth i data bin0) cs)) as GS.
        { induction cs as [|i cs IH]; intros H1 H2; simpl; [constructor|]. constructor.
          - intros c Hc. apply in_map_iff in Hc as (j & <- & Hj). apply bin_lt_le.
            destruct (H1 i (or_introl eq_refl)) as (b & Hb & Eb). destruct (H1 j (or_intror Hj)) as (c & Hc & Ec).
            rewrite (nth_error_nth _ _ bin0 Hb), (nth_error_nth _ _ bin0 Hc).
            destruct (In_nth_error _ _ Hj) as [l Hl]. apply (HO i j b c); auto; [|congruence].
            apply (H2 0%nat (S l) i j); auto. lia.
          - apply IH; [intros; apply H1; right; auto|]. intros k l i' j' Hkl Hi' Hj'. apply (H2 (S k) (S l)); auto; lia. }
        apply GS; [intros i; apply layer_cells_spec|]. intros k l i j. apply seq_filter_lt. }
      rewrite (filled_spec data nb y layer).
      + simpl rbind. destruct (find_edges _) as [[a b]|]; auto.
      + intros b Hb. unfold layer in Hb. apply in_map_iff in Hb as (i & <- & Hi).
        apply layer_cells_spec in Hi as (b & Hb & Ey). rewrite (nth_error_nth _ _ bin0 Hb).
        split; auto. eapply nth_error_In; eauto. }
  destruct (rmapM_select body
    (fun y p => exists cells flags a b,
      (forall i, In i cells <-> in_layer data y i) /\
      (forall k l i j, (k < l)%nat -> nth_error cells k = Some i -> nth_error cells l = Some j -> x_of data i < x_of data j) /\
      Forall2 (fun i f => f = true <-> D i) cells flags /\
      longest_run flags a b /\ nth_error cells a = Some (fst p) /\ nth_error cells b = Some (snd p))
    (fun y => ~ exists i, in_layer data y i /\ D i) (get_yvalues (map bY data) lo hi) (yvalues_inc _ _ _))
    as (bs & sel & E & Inc & F & S1 & S2).
  - intros y Hy. destruct (HB y) as (flags & FF & ->). set (cells := layer_cells data y) in *.
    pose proof (Forall2_length FF) as LF. pose proof (find_edges_spec flags) as SE.
    destruct (find_edges flags) as [[a b]|].
    + right. eexists; split; [reflexivity|]. exists cells, flags, a, b. simpl.
      assert (flags <> []) as NE.
      { apply yvalues_spec in Hy as [Hy _]. apply in_map_iff in Hy as (c & <- & Hc).
        destruct (In_nth_error _ _ Hc) as [i Hi]. assert (In i cells) as Hin by (apply layer_cells_spec; exists c; auto).
        intros ->. destruct cells; [destruct Hin | discriminate LF]. }
      destruct (longest_run_bound _ _ _ NE SE) as [La Lb].
      split; [intro; apply layer_cells_spec|]. split.
      * intros k l i j Hkl Hi Hj. pose proof (seq_filter_lt _ _ _ _ _ _ _ Hkl Hi Hj) as Hlt.
        apply nth_error_In in Hi, Hj. apply layer_cells_spec in Hi as (bi & Hi & Ei), Hj as (bj & Hj & Ej).
        unfold x_of. rewrite Hi, Hj. apply (HO i j); auto. congruence.
      * split; auto. split; auto. split; apply nth_error_nth'; lia.
    + left. split; auto. intros (i & Hi & Di). apply layer_cells_spec in Hi. fold cells in Hi.
      destruct (In_nth_error _ _ Hi) as [k Hk]. apply Forall2_nth in FF as [_ FF].
      destruct (nth_error flags k) as [f|] eqn:Ef.
      * specialize (FF k i f Hk Ef). apply FF in Di. subst f. apply nth_error_In in Ef. apply SE in Ef. discriminate.
      * apply nth_error_None in Ef. assert (k < length cells)%nat by (apply nth_error_Some; congruence). lia.
  - exists bs, sel. split; [exact E|]. split; auto. split; auto.
    intro y. split.
    + intro Hy. pose proof (S1 y Hy) as Hin. apply yvalues_spec in Hin as [Hin' Hin]. split; auto.
      destruct (In_nth_error _ _ Hy) as [k Hk]. apply Forall2_nth in F as [FL F].
      destruct (nth_error bs k) as [p|] eqn:Ep.
      2:{ apply nth_error_None in Ep. assert (k < length sel)%nat by (apply nth_error_Some; congruence). lia. }
      destruct (F k y p Hk Ep) as (cells & flags & a & b & HC & _ & FF & LR & Ha & Hb).
      pose proof (Forall2_length FF) as LF. apply Forall2_nth in FF as [_ FF].
      assert (a < length cells)%nat as La by (apply nth_error_Some; congruence).
      destruct (nth_error flags a) as [f|] eqn:Ef; [|apply nth_error_None in Ef; lia].
      specialize (FF a _ f Ha Ef). exists (fst p). split; [apply HC; eapply nth_error_In; eauto|]. apply FF.
      destruct LR as [(All & _)|(len & Hl & _ & _ & R & _)].
      * apply All. eapply nth_error_In; eauto.
      * specialize (R 0%nat ltac:(lia)). unfold cyc in R. rewrite Nat.add_0_r, Nat.mod_small in R by lia.
        rewrite (nth_error_nth _ _ false Ef) in R. auto.
    + intros [Hin (i & (c & Hc & Hy) & Hi)]. destruct (S2 y) as [|N]; auto.
      * apply yvalues_spec. split; auto. subst y. apply in_map. eapply nth_error_In; eauto.
      * exfalso. apply N. exists i. split; auto. exists c; auto.
Qed.
End P.
