(** Averages of interfaces. *)
From Coq Require Import Permutation.
From Verif.Base Require Import QcX Res Np ListX Sort.
From Verif.Model Require Import InterfaceView.
Local Open Scope list_scope.

Lemma nodupb_spec l : nodupb l = true <-> NoDup l.
Proof.
  induction l as [|x l IH]; simpl; [split; [constructor|reflexivity]|].
  rewrite Bool.andb_true_iff, Bool.negb_true_iff, IH. split.
  - intros [H1 H2]. constructor; [|exact H2]. intros Hin. assert (existsb (qeq x) l = true); [|congruence].
    apply existsb_exists. exists x. split; [exact Hin|apply qeq_refl].
  - intros H. inversion H as [|? ? N1 N2]; subst. split; [|exact N2]. destruct (existsb (qeq x) l) eqn:E; [|reflexivity].
    exfalso. apply existsb_exists in E as (y & Hy & Q). apply qeq_true in Q. subst. contradiction.
Qed.
Lemma lookup_spec s y v : NoDup (map fst s) -> lookup y s = Some v <-> In (y, v) s.
Proof.
  unfold lookup. induction s as [|[k w] s IH]; simpl; intros H; [split; [discriminate|intros []]|].
  inversion H as [|? ? N1 N2]; subst. destruct (qeq_spec k y) as [->|N].
  - simpl. split; [intros [= ->]; auto|]. intros [[= ->]|Hin]; [reflexivity|]. exfalso. apply N1. apply in_map_iff. exists (y, v). auto.
  - rewrite IH by exact N2. split; [auto|]. intros [[= -> ->]|Hin]; [congruence|exact Hin].
Qed.
Lemma lookup_none s y : lookup y s = None <-> ~ In y (map fst s).
Proof.
  unfold lookup. induction s as [|[k w] s IH]; simpl; [tauto|]. destruct (qeq_spec k y) as [->|N]; simpl; [split; [discriminate|tauto]|].
  rewrite IH. split; [intros H [->|Hin]; [congruence|tauto]|tauto].
Qed.
Definition row (l : list series) (y : Qc) : option (list Qc) :=
  fold_right (fun s acc => match lookup y s, acc with Some v, Some vs => Some (v :: vs) | _, _ => None end) (Some []) l.
Lemma row_spec l y vs : row l y = Some vs <-> Forall2 (fun s v => lookup y s = Some v) l vs.
Proof.
  revert vs; induction l as [|s l IH]; intros vs; simpl.
  - split; [intros [= <-]; constructor|intros H; inversion H; reflexivity].
  - destruct (lookup y s) as [v|] eqn:E.
    + destruct (row l y) as [ws|] eqn:R.
      * split; [intros [= <-]; constructor; [exact E|apply IH; reflexivity]|]. intros H. inversion H as [|? v' ? vs' A B]; subst.
        rewrite E in A. injection A as ->. apply IH in B. injection B as ->. reflexivity.
      * split; [discriminate|]. intros H. inversion H as [|? v' ? vs' A B]; subst. apply IH in B. discriminate.
    + split; [discriminate|]. intros H. inversion H as [|? v' ? vs' A B]; subst. congruence.
Qed.
Definition avg (l : list series) : series :=
  flat_map (fun y => match row l y with Some vs => [(y, qmean vs)] | None => [] end) (unique (concat (map (map fst) l))).
Lemma average_edge_eq l : average_edge l = if forallb (fun s => nodupb (map fst s)) l then Ok (avg l) else Err ValueErr.
Proof. reflexivity. Qed.

Lemma avg_in l y x : l <> [] -> In (y, x) (avg l) <-> exists vs, Forall2 (fun s v => lookup y s = Some v) l vs /\ x = qmean vs.
Proof.
  intros Hne. unfold avg. rewrite in_flat_map. split.
  - intros (z & Hz & H). destruct (row l z) as [vs|] eqn:E; [|destruct H]. destruct H as [[= -> <-]|[]]. exists vs. split; [apply row_spec; exact E|reflexivity].
  - intros (vs & HF & ->). exists y. split.
    + apply unique_in. destruct HF as [|s v l vs H HF]; [congruence|]. simpl. apply in_or_app. left.
      destruct (in_dec Qc_eq_dec y (map fst s)) as [Hin|Hn]; [exact Hin|]. apply lookup_none in Hn. congruence.
    + apply row_spec in HF. rewrite HF. simpl. auto.
Qed.
Lemma flat_map_opt_inc (f : Qc -> list (Qc * Qc)) l : (forall y, f y = [] \/ exists x, f y = [(y, x)]) -> increasing l -> increasing (map fst (flat_map f l)).
Proof.
  intros Hf. induction 1 as [|y l Hy Hl IH]; simpl; [constructor|]. destruct (Hf y) as [-> | (x & ->)]; [exact IH|].
  simpl. constructor; [|exact IH]. intros z Hz. apply Hy. apply in_map_iff in Hz as ((z' & x') & <- & Hz). simpl.
  apply in_flat_map in Hz as (w & Hw & Hz). destruct (Hf w) as [E|(x'' & E)]; rewrite E in Hz; [destruct Hz|]. destruct Hz as [[= <- <-]|[]]. exact Hw.
Qed.
Lemma avg_increasing l : increasing (map fst (avg l)).
Proof.
  unfold avg. apply flat_map_opt_inc; [|apply unique_inc]. intros y. destruct (row l y) as [vs|]; [right; eauto|left; reflexivity].
Qed.

(** ** Both edges *)
Definition left_half (i : list Qc * list Qc) : series := let n := Nat.div (length (fst i)) 2 in combine (firstn n (snd i)) (firstn n (fst i)).
Definition right_half (i : list Qc * list Qc) : series := let n := Nat.div (length (fst i)) 2 in combine (skipn n (snd i)) (skipn n (fst i)).
Lemma sides_eq i : length (fst i) = length (snd i) -> get_boundary_sides i = Ok (left_half i, right_half i).
Proof.
  destruct i as [xs ys]. simpl. intros H. unfold get_boundary_sides. rewrite !firstn_length, !skipn_length, H, !Nat.eqb_refl. unfold left_half, right_half. simpl. rewrite H. reflexivity.
Qed.
Lemma average_eq l : (forall i, In i l -> length (fst i) = length (snd i)) ->
  average_interfaces l = do a <- average_edge (map left_half l); do b <- average_edge (map right_half l); Ok (a ++ rev b).
Proof.
  intros H. unfold average_interfaces. rewrite (rmapM_ok_map _ (fun i => (left_half i, right_half i))) by (intros; apply sides_eq; auto).
  cbn [rbind]. rewrite !map_map. reflexivity.
Qed.
Definition no_repeats (i : list Qc * list Qc) : Prop := NoDup (map fst (left_half i)) /\ NoDup (map fst (right_half i)).
Lemma average_ok l : (forall i, In i l -> length (fst i) = length (snd i)) -> (forall i, In i l -> no_repeats i) ->
  average_interfaces l = Ok (avg (map left_half l) ++ rev (avg (map right_half l))).
Proof.
  intros H HN. rewrite average_eq by exact H. rewrite !average_edge_eq.
  assert (forall g : list Qc * list Qc -> series, (forall i, In i l -> NoDup (map fst (g i))) -> forallb (fun s => nodupb (map fst s)) (map g l) = true) as G.
  { intros g Hg. apply forallb_forall. intros s Hs. apply in_map_iff in Hs as (i & <- & Hi). apply nodupb_spec. auto. }
  rewrite !G; [reflexivity| |]; intros i Hi; apply HN; exact Hi.
Qed.
Lemma Forall2_map_l {A B C} (f : A -> B) (R : B -> C -> Prop) l m : Forall2 R (map f l) m <-> Forall2 (fun a c => R (f a) c) l m.
Proof.
  revert m; induction l as [|a l IH]; intros m; simpl; split; intros H; inversion H; subst; constructor; auto; apply IH; assumption.
Qed.

Lemma Forall2_perm {A B} (R : A -> B -> Prop) l l' m : Permutation l l' -> Forall2 R l m -> exists m', Permutation m m' /\ Forall2 R l' m'.
Proof.
  intros H. revert m. induction H as [|a l l' HP IH|a b l|l l' l'' HP1 IH1 HP2 IH2]; intros m HF.
  - inversion HF; subst. exists []. split; [constructor|constructor].
  - inversion HF as [|? c ? m0 H1 H2]; subst. destruct (IH m0 H2) as (m' & P & F). exists (c :: m'). split; [constructor; exact P|constructor; assumption].
  - inversion HF as [|? c ? m0 H1 H2]; subst. inversion H2 as [|? d ? m1 H3 H4]; subst. exists (d :: c :: m1). split; [constructor|constructor; [|constructor]; assumption].
  - destruct (IH1 m HF) as (m' & P1 & F1). destruct (IH2 m' F1) as (m'' & P2 & F2). exists m''. split; [eapply Permutation_trans; eassumption|exact F2].
Qed.
Lemma qmean_perm l m : Permutation l m -> qmean l = qmean m.
Proof. intros H. unfold qmean. rewrite (qsum_perm _ _ H), (Permutation_length H). reflexivity. Qed.

Lemma inc_pairs_ext (l m : series) : increasing (map fst l) -> increasing (map fst m) -> (forall y x, In (y, x) l <-> In (y, x) m) -> l = m.
Proof.
  intros Hl. remember (map fst l) as kl eqn:E. revert l E m. induction Hl as [|k kl Hk Hkl IH]; intros l E m Hm H.
  - destruct l; [|discriminate]. destruct m as [|[y x] m]; [reflexivity|]. exfalso. apply (H y x). left; reflexivity.
  - destruct l as [|[k' v] l]; [discriminate|]. injection E as -> E.
    destruct m as [|[y x] m]; [exfalso; apply (H k' v); left; reflexivity|].
    simpl in Hm. inversion Hm as [|? ? Hy Hm']; subst.
    assert ((k', v) = (y, x)) as EQ.
    { destruct (proj1 (H k' v) (or_introl eq_refl)) as [HH|A]; [symmetry; exact HH|].
      destruct (proj2 (H y x) (or_introl eq_refl)) as [HH|B]; [exact HH|].
      assert (k' < y) by (apply Hk; apply in_map_iff; exists (y, x); auto).
      assert (y < k') by (apply Hy; apply in_map_iff; exists (k', v); auto). exfalso. qlra. }
    injection EQ as -> ->. f_equal. apply IH; auto. intros a b. split; intros Hin.
    + destruct (proj1 (H a b) (or_intror Hin)) as [[= -> ->]|K]; [|exact K]. exfalso.
      assert (a < a) by (apply Hk; apply in_map_iff; exists (a, b); auto). qlra.
    + destruct (proj2 (H a b) (or_intror Hin)) as [[= -> ->]|K]; [|exact K]. exfalso.
      assert (a < a) by (apply Hy; apply in_map_iff; exists (a, b); auto). qlra.
Qed.
Lemma avg_perm l l' : Permutation l l' -> avg l = avg l'.
Proof.
  intros H. destruct l as [|s l].
  - apply Permutation_nil in H. subst. reflexivity.
  - assert (l' <> []) as Hne. { intros ->. apply Permutation_sym, Permutation_nil in H. discriminate. }
    apply inc_pairs_ext; try apply avg_increasing. intros y x. rewrite !avg_in by (discriminate || assumption). split; intros (vs & HF & ->).
    + destruct (Forall2_perm _ _ _ _ H HF) as (vs' & P & F). exists vs'. split; [exact F|apply qmean_perm; exact P].
    + destruct (Forall2_perm _ _ _ _ (Permutation_sym H) HF) as (vs' & P & F). exists vs'. split; [exact F|apply qmean_perm; exact P].
Qed.
Lemma qmean_repeat v n : n <> 0%nat -> qmean (repeat v n) = v.
Proof. intros H. unfold qmean. rewrite qsum_repeat, repeat_length. field. apply NQ_nz. exact H. Qed.
Lemma avg_copies s n : n <> 0%nat -> increasing (map fst s) -> avg (repeat s n) = s.
Proof.
  intros Hn Hi. apply inc_pairs_ext; [apply avg_increasing|exact Hi|]. intros y x.
  assert (repeat s n <> []) as Hne by (destruct n; [congruence|discriminate]).
  rewrite avg_in by exact Hne. rewrite <- (lookup_spec s y x) by (apply increasing_nodup; exact Hi). split.
  - intros (vs & HF & ->). assert (exists v, lookup y s = Some v /\ vs = repeat v n) as (v & E & ->).
    { destruct n as [|n]; [congruence|]. simpl in HF. inversion HF as [|? v ? vs' H1 H2]; subst. exists v. split; [exact H1|]. simpl. f_equal.
      clear - H1 H2. revert vs' H2. induction n as [|n IH]; intros vs' H2; inversion H2 as [|? w ? ws A B]; subst; [reflexivity|].
      simpl. f_equal; [congruence|apply IH; exact B]. }
    rewrite qmean_repeat by exact Hn. exact E.
  - intros E. exists (repeat x n). split; [|symmetry; apply qmean_repeat; exact Hn]. clear Hne Hn. induction n; simpl; constructor; auto.
Qed.
