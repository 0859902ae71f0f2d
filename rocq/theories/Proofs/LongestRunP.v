(** The scan for the longest periodic stretch of filled cells. *)
From Verif.Base Require Import QcX Res Np Sort.
From Verif.Model Require Import Bins Interface.
From Verif.Spec Require Import InterfaceSpec.
Local Open Scope nat_scope.

Lemma combine_snoc {A B} (l : list A) (m : list B) a b : length l = length m ->
  combine (l ++ [a]) (m ++ [b]) = combine l m ++ [(a, b)].
Proof. revert m; induction l; intros [|]; simpl; intros; try discriminate; auto. f_equal; auto. Qed.
Lemma scan_snoc g c : scan (g ++ [c]) = scan_step (scan g) (length g, c).
Proof.
  unfold scan. rewrite app_length, seq_app. simpl. rewrite combine_snoc by (rewrite seq_length; auto).
  rewrite fold_left_app. reflexivity.
Qed.

Definition all_true (g : list bool) (a len : nat) : Prop := forall k, a <= k < a + len -> nth k g false = true.

Definition scan_inv (g : list bool) (s : scan_state) : Prop :=
  let '(ib, lb, beg, lc) := s in let m := length g in
  lc <= m /\
  (beg = None /\ lc = 0 \/ beg = Some (m - lc) /\ 0 < lc) /\
  all_true g (m - lc) lc /\ (lc < m -> nth (m - lc - 1) g false = false) /\
  (0 < lb -> all_true g ib lb /\ ib + lb < m /\ nth (ib + lb) g false = false /\ (0 < ib -> nth (ib - 1) g false = false)) /\
  (forall a len, a + len <= m -> all_true g a len -> 0 < len -> len <= lb \/ m - lc <= a).

Lemma nth_snoc (g : list bool) c k : nth k (g ++ [c]) false = if Nat.eqb k (length g) then c else nth k g false.
Proof.
  destruct (Nat.eqb_spec k (length g)) as [->|].
  - rewrite app_nth2, Nat.sub_diag by lia. reflexivity.
  - destruct (Nat.lt_ge_cases k (length g)).
    + rewrite app_nth1; auto.
    + rewrite !nth_overflow; auto. rewrite app_length; simpl; lia.
Qed.
Ltac nth_snoc := rewrite nth_snoc in *; match goal with |- context [Nat.eqb ?a ?b] => destruct (Nat.eqb_spec a b); try lia end.

Lemma all_true_snoc g c a len : a + len <= length g -> (all_true (g ++ [c]) a len <-> all_true g a len).
Proof.
  intros H. unfold all_true. split; intros K k Hk; specialize (K k Hk).
  - rewrite nth_snoc in K. destruct (Nat.eqb_spec k (length g)); auto; lia.
  - rewrite nth_snoc. destruct (Nat.eqb_spec k (length g)); auto; lia.
Qed.
Lemma all_true_sub g a len b len' : all_true g a len -> a <= b -> b + len' <= a + len -> all_true g b len'.
Proof. intros H ? ? k Hk. apply H. lia. Qed.

Lemma scan_inv_holds g : scan_inv g (scan g).
Proof.
  induction g as [|c g IH] using rev_ind.
  - simpl. repeat split; auto; try lia. intros k Hk; lia.
  - rewrite scan_snoc. destruct (scan g) as [[[ib lb] beg] lc]. simpl in IH.
    destruct IH as (L & B & T & F & Best & Max). unfold scan_step. set (m := length g) in *.
    assert (length (g ++ [c]) = S m) as LM by (rewrite app_length; simpl; unfold m; lia).
    assert (forall ib lb, 0 < lb -> (all_true g ib lb /\ ib + lb < m /\ nth (ib + lb) g false = false /\ (0 < ib -> nth (ib - 1) g false = false)) ->
       all_true (g ++ [c]) ib lb /\ ib + lb < S m /\ nth (ib + lb) (g ++ [c]) false = false /\ (0 < ib -> nth (ib - 1) (g ++ [c]) false = false)) as Keep.
    { intros ib' lb' Hl (A1 & A2 & A3 & A4). split; [apply all_true_snoc; auto; fold m; lia|]. split; [lia|].
      rewrite !nth_snoc. fold m. destruct (Nat.eqb_spec (ib' + lb') m); [lia|]. split; auto.
      destruct (Nat.eqb_spec (ib' - 1) m); [lia|auto]. }
    destruct c.
    + assert (scan_inv (g ++ [true]) (ib, lb, Some (m - lc), S lc)) as G.
      { simpl. rewrite LM. refine (conj _ (conj _ (conj _ (conj _ (conj _ _))))); try lia.
        - right. split; [f_equal; lia|lia].
        - intros k Hk. rewrite nth_snoc. fold m. destruct (Nat.eqb_spec k m); auto. apply T. lia.
        - intros Hlt. rewrite nth_snoc. fold m. destruct (Nat.eqb_spec (S m - S lc - 1) m); [lia|].
          replace (S m - S lc - 1) with (m - lc - 1) by lia. apply F. lia.
        - intros Hl. apply (Keep ib lb Hl). auto.
        - intros a len Ha At Hl. destruct (Nat.eq_dec (a + len) (S m)) as [E|E].
          + destruct (Nat.le_gt_cases (m - lc) a); [right; lia|].
            exfalso. assert (lc < m) as Hlc by lia. specialize (F Hlc).
            specialize (At (m - lc - 1)). rewrite nth_snoc in At. fold m in At.
            destruct (Nat.eqb_spec (m - lc - 1) m); [lia|]. rewrite F in At. discriminate At. lia.
          + assert (a + len <= m) by lia. apply all_true_snoc in At; [|fold m; lia].
            destruct (Max a len) as [|]; auto; right; lia. }
      destruct B as [[-> ->]|[-> ?]].
      * replace (Some m) with (Some (m - 0)) by (f_equal; lia). exact G.
      * exact G.
    + assert (forall ib' lb', lb <= lb' -> lc <= lb' ->
         (0 < lb' -> all_true g ib' lb' /\ ib' + lb' < S m /\ nth (ib' + lb') (g ++ [false]) false = false /\ (0 < ib' -> nth (ib' - 1) g false = false)) ->
         scan_inv (g ++ [false]) (ib', lb', None, 0)) as G.
      { intros ib' lb' Hlb Hlc HB. simpl. rewrite LM. refine (conj _ (conj _ (conj _ (conj _ (conj _ _))))); try lia; auto.
        - intros k Hk; lia.
        - intros _. rewrite nth_snoc. fold m. destruct (Nat.eqb_spec (S m - 0 - 1) m); [auto|lia].
        - intros H. destruct (HB H) as (A1 & A2 & A3 & A4). split; [apply all_true_snoc; auto; fold m; lia|].
          split; auto. split; auto. intros Hi. rewrite nth_snoc. fold m. destruct (Nat.eqb_spec (ib' - 1) m); auto.
        - intros a len Ha At Hl. destruct (Nat.eq_dec (a + len) (S m)) as [E|E].
          + exfalso. specialize (At m). rewrite nth_snoc in At. fold m in At. rewrite Nat.eqb_refl in At. discriminate At. lia.
          + apply all_true_snoc in At; [|fold m; lia]. destruct (Max a len) as [|]; auto; lia. }
      destruct B as [[-> ->]|[-> ?]].
      * apply G; auto; try lia. intros H. destruct (Best H) as (A1 & A2 & A3 & A4). repeat split; auto; try lia.
        rewrite nth_snoc; fold m. destruct (Nat.eqb_spec (ib + lb) m); auto.
      * destruct (Nat.ltb_spec lb lc).
        -- apply G; auto; try lia. intros _. repeat split; auto; try lia.
           ++ rewrite nth_snoc; fold m. destruct (Nat.eqb_spec (m - lc + lc) m); auto. lia.
           ++ intros Hp. apply F. lia.
        -- apply G; auto; try lia. intros H1. destruct (Best H1) as (A1 & A2 & A3 & A4). repeat split; auto; try lia.
           rewrite nth_snoc; fold m. destruct (Nat.eqb_spec (ib + lb) m); auto.
Qed.

Lemma nth_double f k : k < 2 * length f -> nth k (f ++ f) false = cyc f k.
Proof.
  intros H. unfold cyc. destruct (Nat.lt_ge_cases k (length f)).
  - rewrite app_nth1, Nat.mod_small; auto.
  - rewrite app_nth2; auto. f_equal.
    replace k with ((k - length f) + 1 * length f) at 2 by lia.
    rewrite Nat.mod_add, Nat.mod_small; lia.
Qed.
Lemma cyc_mod f k : cyc f (k mod length f) = cyc f k.
Proof. unfold cyc. destruct (Nat.eq_dec (length f) 0) as [E|]; [rewrite E; reflexivity|]. rewrite Nat.mod_mod; auto. Qed.
Lemma cyc_mod_add f a k : cyc f (a mod length f + k) = cyc f (a + k).
Proof.
  unfold cyc. destruct (Nat.eq_dec (length f) 0) as [E|]; [destruct f; [|discriminate]; simpl; destruct (a+k), k; reflexivity|].
  rewrite Nat.add_mod_idemp_l; auto.
Qed.
Lemma cyc_period f k : cyc f (k + length f) = cyc f k.
Proof.
  unfold cyc. destruct (Nat.eq_dec (length f) 0) as [E|]; [rewrite E, Nat.add_0_r; auto|].
  replace (k + length f) with (k + 1 * length f) by lia. rewrite Nat.mod_add; auto.
Qed.
Lemma cyc_in f k : length f <> 0 -> In (cyc f k) f.
Proof. intro H. unfold cyc. apply nth_In. apply Nat.mod_upper_bound; auto. Qed.
Lemma run_mod f a len : run f (a mod length f) len <-> run f a len.
Proof. unfold run. split; intros H k Hk; specialize (H k Hk); rewrite cyc_mod_add in *; auto. Qed.
Lemma run_double f a len : a + len <= 2 * length f -> (all_true (f ++ f) a len <-> run f a len).
Proof.
  intros H. unfold all_true, run. split.
  - intros K k Hk. rewrite <- nth_double by lia. apply K. lia.
  - intros K k Hk. rewrite nth_double by lia. replace k with (a + (k - a)) by lia. apply K. lia.
Qed.
(* a pattern with an unset position has no run around the whole period *)
Lemma run_short f a len : In false f -> run f a len -> len < length f.
Proof.
  intros H R. destruct (Nat.lt_ge_cases len (length f)); auto. exfalso.
  destruct (In_nth _ _ false H) as (z & Hz & E).
  set (n := length f) in *.
  assert (exists k, k < n /\ (a + k) mod n = z) as (k & Hk & Ek).
  { exists ((z + n - a mod n) mod n). assert (n <> 0) by lia. split; [apply Nat.mod_upper_bound; auto|].
    rewrite Nat.add_mod_idemp_r by auto.
    pose proof (Nat.mod_upper_bound a n ltac:(auto)).
    rewrite <- Nat.add_mod_idemp_l by auto.
    replace (a mod n + (z + n - a mod n)) with (z + 1 * n) by lia.
    rewrite Nat.mod_add, Nat.mod_small; auto. }
  specialize (R k ltac:(lia)). unfold cyc in R. fold n in R. rewrite Ek in R. congruence.
Qed.

Lemma best_is_longest f ib lb : length f <> 0 -> 0 < lb ->
  all_true (f ++ f) ib lb -> ib + lb < length f + length f -> nth (ib + lb) (f ++ f) false = false ->
  (0 < ib -> nth (ib - 1) (f ++ f) false = false) ->
  (forall a' len', run f a' len' -> len' <= lb) ->
  longest_run f (ib mod length f) ((ib mod length f + lb - 1) mod length f).
Proof.
  set (n := length f). intros N Hlb At Hlt Hend Hstart Max. right. exists lb. fold n.
  assert (In false f) as HF.
  { rewrite <- Hend, nth_double by (fold n; lia). apply cyc_in; auto. }
  apply run_double in At; [|fold n; lia].
  assert (lb < n) by (eapply run_short; eauto).
  pose proof (Nat.mod_upper_bound ib n N).
  split; [lia|]. split; auto. split; auto. split; [apply run_mod; auto|].
  rewrite nth_double in Hend by (fold n; lia).
  split; [rewrite <- Hend; apply cyc_mod_add|]. split; [|exact Max].
  destruct (Nat.eq_dec ib 0) as [->|Hi].
  - rewrite Nat.mod_0_l by auto. destruct (cyc f (0 + n - 1)) eqn:E; auto. exfalso.
    assert (run f (n - 1) (S lb)) as R.
    { intros [|k] Hk; [replace (n - 1 + 0) with (0 + n - 1) by lia; auto|].
      replace (n - 1 + S k) with (k + length f) by (fold n; lia). rewrite cyc_period. apply (At k). lia. }
    apply Max in R. lia.
  - specialize (Hstart ltac:(lia)). rewrite nth_double in Hstart by (fold n; lia).
    rewrite <- Hstart, <- (cyc_period f (ib - 1)). fold n.
    replace (ib mod n + n - 1) with (ib mod n + (n - 1)) by lia.
    rewrite cyc_mod_add. f_equal. lia.
Qed.
Theorem find_edges_spec f :
  match find_edges f with
  | None => forall c, In c f -> c = false
  | Some (a, b) => longest_run f a b
  end.
Proof.
  unfold find_edges. set (n := length f).
  pose proof (scan_inv_holds (f ++ f)) as Inv. destruct (scan (f ++ f)) as [[[ib lb] beg] lc]. simpl in Inv.
  rewrite app_length in Inv. fold n in Inv. destruct Inv as (L & _ & T & F & Best & Max).
  destruct (Nat.eq_dec n 0) as [N0|N0].
  { assert (f = []) by (destruct f; auto; discriminate). subst f. assert (lc = 0) by lia. subst lc. simpl.
    destruct (Nat.eqb_spec lb 0); [intros c []|]. destruct Best as (_ & ? & _); lia. }
  assert (forall c, In c f -> exists k, k < n /\ cyc f k = c) as Pos.
  { intros c Hc. destruct (In_nth _ _ false Hc) as (k & Hk & E). exists k. split; auto. unfold cyc. rewrite Nat.mod_small; auto. }
  destruct (Nat.eqb_spec lb 0) as [->|Hlb].
  - destruct (Nat.ltb_spec 0 lc) as [Hlc|Hlc]; cbn [andb].
    + (* no completed run: all set *)
      assert (lc = 2 * n) as ->.
      { destruct (Nat.eq_dec lc (2 * n)); auto. exfalso.
        assert (lc < n + n) as Hl by lia. specialize (F Hl).
        set (z := n + n - lc - 1) in *. assert (z < 2 * n) as Hz by lia.
        rewrite nth_double in F by (fold n; lia).
        assert (In false f). { rewrite <- F. apply cyc_in. fold n; lia. }
        apply run_double in T; [|fold n; lia].
        assert (lc < n) by (eapply run_short; eauto).
        destruct (Max (n - lc) lc) as [|]; try lia.
        apply run_double; [fold n; lia|]. intros k Hk. rewrite <- cyc_period. fold n.
        replace (n - lc + k + n) with (n + n - lc + k) by lia. apply T; auto. }
      left. split; [|split].
      * intros c Hc. destruct (Pos c Hc) as (k & Hk & <-). apply run_double in T; [|fold n; lia].
        specialize (T k). replace (n + n - 2 * n + k) with k in T by lia. apply T. lia.
      * apply Nat.mod_0_l; auto.
      * rewrite Nat.mod_0_l by auto. replace (0 + 2 * n - 1) with (n - 1 + 1 * n) by lia.
        rewrite Nat.mod_add, Nat.mod_small; fold n; lia.
    + intros c Hc. destruct (Pos c Hc) as (k & Hk & E). destruct c; auto. exfalso.
      destruct (Max k 1); try lia. apply run_double; [fold n; lia|].
      intros j Hj. replace (k + j) with k by lia. auto.
  - rewrite andb_false_r. destruct Best as (A1 & A2 & A3 & A4); [lia|].
    apply best_is_longest; auto; try lia.
    assert (In false f) as HF.
    { rewrite <- A3, nth_double by (fold n; lia). apply cyc_in; auto. }
    intros a' len' R. destruct (Nat.eq_dec len' 0); [lia|].
    pose proof (run_short _ _ _ HF R) as Hs. fold n in Hs.
    apply run_mod in R. fold n in R. pose proof (Nat.mod_upper_bound a' n N0).
    destruct (Max (a' mod n) len'); try lia.
    + apply run_double; auto. fold n; lia.
    + apply run_double in T; [|fold n; lia]. apply (run_short _ _ _ HF) in T. fold n in T. lia.
Qed.
(** The converse: an edge pair is found iff a cell is set. *)
Lemma find_edges_some f : In true f -> exists a b, find_edges f = Some (a, b).
Proof.
  intro H. pose proof (find_edges_spec f) as S. destruct (find_edges f) as [[a b]|]; eauto.
  specialize (S _ H). discriminate.
Qed.
Lemma longest_run_bound f a b : f <> [] -> longest_run f a b -> a < length f /\ b < length f.
Proof.
  intros N [(_ & -> & ->)|(len & H & Ha & -> & _)].
  - destruct f; [congruence|]. simpl. lia.
  - split; auto. apply Nat.mod_upper_bound. lia.
Qed.
