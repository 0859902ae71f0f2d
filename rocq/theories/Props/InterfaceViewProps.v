(** Property C38: averages of interfaces. *)
From Coq Require Import Permutation.
From Verif.Base Require Import QcX Res Np ListX.
From Verif.Model Require Import InterfaceView.
From Verif.Proofs Require Import CollectP CollectRunP InterfaceViewP.
Local Open Scope list_scope.

(** An interface is given by its x and y values: the first half is the left edge, the other the right one. *)
Definition interface := (list Qc * list Qc)%type.
Definition split_at (i : interface) : nat := Nat.div (length (fst i)) 2.
Definition left_point (i : interface) (y x : Qc) : Prop :=
  exists k, (k < split_at i)%nat /\ nth_error (fst i) k = Some x /\ nth_error (snd i) k = Some y.
Definition right_point (i : interface) (y x : Qc) : Prop :=
  exists k, (split_at i <= k)%nat /\ nth_error (fst i) k = Some x /\ nth_error (snd i) k = Some y.
(** As many x as y values; each height is once on each edge. *)
Definition well_formed (i : interface) : Prop :=
  length (fst i) = length (snd i) /\ NoDup (firstn (split_at i) (snd i)) /\ NoDup (skipn (split_at i) (snd i)).

Lemma split_le i : (split_at i <= length (fst i))%nat.
Proof. unfold split_at. apply Nat.div_le_upper_bound; lia. Qed.
Lemma map_fst_combine {A B} (l : list A) (m : list B) : length l = length m -> map fst (combine l m) = l.
Proof. revert m; induction l as [|a l IH]; intros [|b m] H; simpl in *; try lia; [reflexivity|]. f_equal. apply IH. lia. Qed.
Lemma left_keys i : length (fst i) = length (snd i) -> map fst (left_half i) = firstn (split_at i) (snd i).
Proof. intros H. unfold left_half. apply map_fst_combine. unfold split_at. rewrite !firstn_length, H. reflexivity. Qed.
Lemma right_keys i : length (fst i) = length (snd i) -> map fst (right_half i) = skipn (split_at i) (snd i).
Proof. intros H. unfold right_half. apply map_fst_combine. unfold split_at. rewrite !skipn_length, H. reflexivity. Qed.
Lemma left_in i y x : well_formed i -> lookup y (left_half i) = Some x <-> left_point i y x.
Proof.
  intros (HL & N1 & N2). rewrite lookup_spec by (rewrite left_keys by exact HL; exact N1). unfold left_half, left_point. fold (split_at i). pose proof (split_le i) as HS. split.
  - intros H. apply In_nth_error in H as (k & H). rewrite combine_nth_error in H.
    destruct (nth_error (firstn (split_at i) (snd i)) k) as [a|] eqn:A; [|discriminate]. destruct (nth_error (firstn (split_at i) (fst i)) k) as [b|] eqn:B; [|discriminate].
    injection H as -> ->. assert (k < split_at i)%nat as Hk.
    { assert (k < length (firstn (split_at i) (snd i)))%nat by (apply nth_error_Some; congruence). rewrite firstn_length in H. lia. }
    rewrite nth_error_firstn in A, B by exact Hk. eauto.
  - intros (k & Hk & Hx & Hy). apply (nth_error_In _ k). rewrite combine_nth_error, !nth_error_firstn, Hx, Hy by exact Hk. reflexivity.
Qed.
Lemma right_in i y x : well_formed i -> lookup y (right_half i) = Some x <-> right_point i y x.
Proof.
  intros (HL & N1 & N2). rewrite lookup_spec by (rewrite right_keys by exact HL; exact N2). unfold right_half, right_point. fold (split_at i). split.
  - intros H. apply In_nth_error in H as (k & H). rewrite combine_nth_error in H.
    destruct (nth_error (skipn (split_at i) (snd i)) k) as [a|] eqn:A; [|discriminate]. destruct (nth_error (skipn (split_at i) (fst i)) k) as [b|] eqn:B; [|discriminate].
    injection H as -> ->. rewrite nth_error_skipn in A, B. exists (split_at i + k)%nat. split; [lia|auto].
  - intros (k & Hk & Hx & Hy). apply (nth_error_In _ (k - split_at i)). rewrite combine_nth_error, !nth_error_skipn.
    replace (split_at i + (k - split_at i))%nat with k by lia. rewrite Hx, Hy. reflexivity.
Qed.
Lemma Forall2_iff_in {A B} (P Q : A -> B -> Prop) l m : (forall a b, In a l -> P a b <-> Q a b) -> Forall2 P l m <-> Forall2 Q l m.
Proof.
  revert m; induction l as [|a l IH]; intros m H; split; intros HF; inversion HF; subst; constructor; auto; try (apply H; simpl; auto; fail);
    apply (IH l'); auto; intros; apply H; simpl; auto.
Qed.

(** Left edge from below, then right edge from above; on each exactly the heights which all
    interfaces have there, with the mean of their x values. *)
Theorem C38_common_layers : forall l : list interface, l <> [] -> (forall i, In i l -> well_formed i) ->
  exists L R, average_interfaces l = Ok (L ++ rev R) /\ increasing (map fst L) /\ increasing (map fst R) /\
    (forall y x, In (y, x) L <-> exists vs, Forall2 (fun i v => left_point i y v) l vs /\ x = qsum vs / NQ (length l)) /\
    (forall y x, In (y, x) R <-> exists vs, Forall2 (fun i v => right_point i y v) l vs /\ x = qsum vs / NQ (length l)).
Proof.
  intros l Hne HW. exists (avg (map left_half l)), (avg (map right_half l)). split.
  - apply average_ok; [intros i Hi; apply HW; exact Hi|]. intros i Hi. destruct (HW i Hi) as (HL & N1 & N2). unfold no_repeats.
    rewrite left_keys, right_keys by exact HL. auto.
  - split; [apply avg_increasing|]. split; [apply avg_increasing|].
    assert (forall (g : interface -> series) (P : interface -> Qc -> Qc -> Prop), (forall i y x, In i l -> lookup y (g i) = Some x <-> P i y x) ->
      forall y x, In (y, x) (avg (map g l)) <-> exists vs, Forall2 (fun i v => P i y v) l vs /\ x = qsum vs / NQ (length l)) as G.
    { intros g P HG y x. rewrite avg_in by (destruct l; [congruence|discriminate]).
      split; intros (vs & HF & ->); exists vs; [apply Forall2_map_l in HF|split; [apply Forall2_map_l|]].
      - split; [eapply Forall2_iff_in; [|exact HF]; intros; symmetry; apply HG; assumption|]. unfold qmean. rewrite <- (Forall2_length HF). reflexivity.
      - eapply Forall2_iff_in; [|exact HF]. intros; apply HG; assumption.
      - unfold qmean. rewrite <- (Forall2_length HF). reflexivity. }
    split; apply G; intros i y x Hi; [apply left_in|apply right_in]; auto.
Qed.
Print Assumptions C38_common_layers.

(** The order of the interfaces does not matter. *)
Theorem C38_order : forall l l', Permutation l l' -> (forall i, In i l -> well_formed i) -> average_interfaces l = average_interfaces l'.
Proof.
  intros l l' HP HW. rewrite !average_ok.
  - rewrite (avg_perm _ _ (Permutation_map left_half HP)), (avg_perm _ _ (Permutation_map right_half HP)). reflexivity.
  - intros i Hi. apply HW. eapply Permutation_in; [apply Permutation_sym; exact HP|exact Hi].
  - intros i Hi. destruct (HW i) as (HL & N1 & N2); [eapply Permutation_in; [apply Permutation_sym; exact HP|exact Hi]|]. split; [rewrite left_keys|rewrite right_keys]; auto.
  - intros i Hi. apply HW. exact Hi.
  - intros i Hi. destruct (HW i Hi) as (HL & N1 & N2). split; [rewrite left_keys|rewrite right_keys]; auto.
Qed.
Print Assumptions C38_order.

Lemma map_repeat {A B} (f : A -> B) a n : map f (repeat a n) = repeat (f a) n.
Proof. induction n; simpl; congruence. Qed.
(** The average of copies of one interface, left edge from below and right edge from above as it is
    collected (C33), is this interface. *)
Lemma avg_copies_rev s n : n <> 0%nat -> increasing (map fst (rev s)) -> avg (repeat s n) = rev s.
Proof.
  intros Hn Hi. rewrite <- (avg_copies (rev s) n Hn Hi). apply inc_pairs_ext; try apply avg_increasing.
  assert (forall s : series, repeat s n <> []) as Hne by (intros; destruct n; [congruence|discriminate]).
  assert (NoDup (map fst (rev s))) as N1 by (apply increasing_nodup; exact Hi).
  assert (NoDup (map fst s)) as N2 by (rewrite map_rev in N1; rewrite <- (rev_involutive (map fst s)); apply NoDup_rev; exact N1).
  assert (forall y v, lookup y s = Some v <-> lookup y (rev s) = Some v) as HL.
  { intros y v. rewrite !lookup_spec by assumption. apply in_rev. }
  intros y x. rewrite !avg_in by apply Hne. clear Hne Hn.
  split; intros (vs & HF & ->); exists vs; (split; [|reflexivity]); revert vs HF; induction n as [|n IH]; intros vs HF; simpl in *; inversion HF; subst; constructor; auto; apply HL; assumption.
Qed.
Theorem C38_copies : forall xs ys n, n <> 0%nat -> length xs = length ys ->
  increasing (firstn (Nat.div (length xs) 2) ys) -> increasing (rev (skipn (Nat.div (length xs) 2) ys)) ->
  average_interfaces (repeat (xs, ys) n) = Ok (combine ys xs).
Proof.
  intros xs ys n Hn HL HI HR. set (i := (xs, ys)).
  assert (map fst (left_half i) = firstn (Nat.div (length xs) 2) ys) as EL by (apply (left_keys i); exact HL).
  assert (map fst (right_half i) = skipn (Nat.div (length xs) 2) ys) as ER by (apply (right_keys i); exact HL).
  rewrite average_ok.
  - rewrite !map_repeat. rewrite avg_copies by (exact Hn || (rewrite EL; exact HI)).
    rewrite avg_copies_rev by (exact Hn || (rewrite map_rev, ER; exact HR)).
    rewrite rev_involutive. f_equal. unfold left_half, right_half. simpl. rewrite <- combine_app.
    + rewrite !firstn_skipn. reflexivity.
    + rewrite !firstn_length. lia.
  - intros j Hj. apply repeat_spec in Hj. subst j. exact HL.
  - intros j Hj. apply repeat_spec in Hj. subst j. unfold no_repeats. rewrite EL, ER. split; [apply increasing_nodup; exact HI|].
    rewrite <- (rev_involutive (skipn _ ys)). apply NoDup_rev, increasing_nodup. exact HR.
Qed.
Print Assumptions C38_copies.

(** Without interfaces the result is empty. *)
Theorem C38_none : average_interfaces [] = Ok [].
Proof. reflexivity. Qed.

(** Interfaces with heights 0, 1, 2 and 1, 2: the average has heights 1 and 2. *)
Example C38_case :
  let i1 := ([ZQ 1; ZQ 2; ZQ 3; ZQ 7; ZQ 8; ZQ 9], [ZQ 0; ZQ 1; ZQ 2; ZQ 2; ZQ 1; ZQ 0]) in
  let i2 := ([ZQ 4; ZQ 5; ZQ 9; ZQ 10], [ZQ 1; ZQ 2; ZQ 2; ZQ 1]) in
  well_formed i1 /\ well_formed i2 /\ average_interfaces [i1; i2] = Ok [(ZQ 1, ZQ 3); (ZQ 2, ZQ 4); (ZQ 2, ZQ 8); (ZQ 1, ZQ 9)].
Proof.
  assert (forall l, nodupb l = true -> NoDup l) as ND by (intros; apply nodupb_spec; assumption).
  intros i1 i2. split; [|split].
  - split; [reflexivity|]. split; apply ND; vm_compute; reflexivity.
  - split; [reflexivity|]. split; apply ND; vm_compute; reflexivity.
  - transitivity (Ok [(Q2Qc 1, Q2Qc 3); (Q2Qc 2, Q2Qc 4); (Q2Qc 2, Q2Qc 8); (Q2Qc 1, Q2Qc 9)]); [|reflexivity].
    unfold i1, i2. match goal with |- ?a = Ok ?b => assert (match a with Ok l => Nat.eqb (length l) 4 && forallb (fun p => qeq (fst (fst p)) (fst (snd p)) && qeq (snd (fst p)) (snd (snd p))) (combine l b) | Err _ => false end = true)%bool as E by (vm_compute; reflexivity) end.
    destruct (average_interfaces _) as [l|e]; [|discriminate]. f_equal. apply Bool.andb_true_iff in E as [EN E]. apply Nat.eqb_eq in EN.
    destruct l as [|[a1 b1] [|[a2 b2] [|[a3 b3] [|[a4 b4] [|? ?]]]]]; simpl in EN; try discriminate. cbn [combine forallb fst snd] in E.
    repeat match goal with H : (_ && _)%bool = true |- _ => apply Bool.andb_true_iff in H as [? ?] end.
    repeat match goal with H : qeq _ _ = true |- _ => apply qeq_true in H; subst end. reflexivity.
Qed.
