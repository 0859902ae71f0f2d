From Coq Require Import List ZArith String Ascii Bool Lia Permutation.
From Coq Require Import ZifyBool ZifyNat ZifyN.
From Verif.Base Require Import Res.
From Verif.Model Require Import Utils.
From Verif.Spec Require Import FilesSpec DiskSpec.
From Verif.Proofs Require Import UtilsFiles UtilsDisk.
Import ListNotations.
Local Open Scope string_scope.
Local Open Scope Z_scope.

Lemma gen_form fuel base b e ext : exists n, (n <= fuel)%nat /\
  gen_filenames fuel base b e ext = map (fun k => fname base k ext) (numbers b n).
Proof.
  destruct e as [m|].
  - rewrite gen_upto. eexists. split; [|reflexivity]. lia.
  - rewrite gen_inf. eexists. split; [|reflexivity]. lia.
Qed.

Lemma numbers_nodup b n : NoDup (numbers b n).
Proof.
  revert b; induction n as [|n IH]; intros b; cbn [numbers]; constructor; auto.
  rewrite in_numbers. lia.
Qed.

Lemma names_nodup base b n ext : NoDup (map (fun k => fname base k ext) (numbers b n)).
Proof. apply FinFun.Injective_map_NoDup; [|apply numbers_nodup]. intros x y H. apply fname_inj in H. exact H. Qed.

Lemma gen_filenames_nodup fuel base b e ext : NoDup (gen_filenames fuel base b e ext).
Proof. destruct (gen_form fuel base b e ext) as (n & _ & ->). apply names_nodup. Qed.

Lemma gen_filenames_nth fuel base b e ext k :
  0 <= b -> (k < fuel)%nat ->
  (match e with Upto m => b + Z.of_nat k <= m | Inf => True end ->
     exists s, nth_error (gen_filenames fuel base b e ext) k = Some (base ++ s ++ ext) /\
               five_digit_text s (b + Z.of_nat k)) /\
  (match e with Upto m => m < b + Z.of_nat k | Inf => False end ->
     nth_error (gen_filenames fuel base b e ext) k = None).
Proof.
  intros Hb Hk. split.
  - intros H. exists (fmt05d (b + Z.of_nat k)). split; [|apply fmt05d_text; lia].
    destruct e as [m|].
    + rewrite gen_upto. erewrite map_nth_error; [|apply numbers_nth; lia]. reflexivity.
    + rewrite gen_inf. erewrite map_nth_error; [|apply numbers_nth; lia]. reflexivity.
  - destruct e as [m|]; [|contradiction]. intros H. rewrite gen_upto. apply nth_error_None.
    rewrite map_length, numbers_length. lia.
Qed.

Lemma find_singles_bounded fs base begin m ext :
  exists n, run_length (fun z => z <= m /\ fs (fname base z ext) = true) begin n /\
    forall fuel, (Z.to_nat (m - begin + 1) < fuel)%nat ->
      find_datamap_singles fuel fs base begin (Upto m) ext =
      Ok (map (fun k => fname base k ext) (numbers begin n), Nat.eqb n 0 && (begin <=? m)).
Proof.
  destruct (run_exists_bounded _ (good_dec fs base (Upto m) ext) (Z.to_nat (m - begin + 1)) begin) as (n & Hn & Hr).
  { intros [H _]. lia. }
  exists n. split; [exact Hr|]. intros fuel Hf. unfold find_datamap_singles.
  rewrite (yield_singles_run fs base (Upto m) ext n) by (auto; lia).
  rewrite andb_true_r. reflexivity.
Qed.

Lemma groups_partition names base begin e ext (g : nat) : (0 < g)%nat ->
  let fs := fun s => existsb (String.eqb s) names in
  exists l w,
    (forall fuel, (List.length names < fuel)%nat -> find_datamap_singles fuel fs base begin e ext = Ok (l, w)) /\
    exists groups,
    (forall fuel, (List.length names + 1 < fuel)%nat ->
      find_datamap_groups fuel fs base begin e ext (Z.of_nat g) false = Ok groups) /\
    (forall gr, In gr groups -> List.length gr = g) /\
    List.length groups = (List.length l / g)%nat /\
    List.concat groups = firstn (List.length l / g * g) l.
Proof.
  intros Hg fs. destruct (groups_of_singles names base begin e ext g false Hg) as (l & w & H1 & H2).
  exists l, w. split; [exact H1|]. eexists. split; [exact H2|].
  destruct (groups_count_plain g (List.length l) Hg) as [G1 G2].
  split; [|split].
  - intros gr Hgr. apply in_map_iff in Hgr. destruct Hgr as (i & <- & Hi). apply in_seq in Hi.
    unfold window. rewrite firstn_length, skipn_length. specialize (G1 i). lia.
  - rewrite map_length, seq_length. reflexivity.
  - apply concat_chunks. pose proof (Nat.div_mod (List.length l) g). lia.
Qed.

(** Pairing *)
Lemma combine_map_same {A B C} (f : A -> B) (g : A -> C) l :
  combine (map f l) (map g l) = map (fun a => (f a, g a)) l.
Proof. induction l; simpl; congruence. Qed.

Lemma singles_to_singles names base output o :
  let begin := match o_begin o with Some b => b | None => 1 end in
  let e := match o_end o with Some e => e | None => Inf end in
  let ext := match o_ext o with Some x => x | None => ".dat" end in
  let outext := match o_outext o with Some x => x | None => ext end in
  exists n,
    run_length (fun z => match e with Upto m => z <= m | Inf => True end
                         /\ In (fname base z ext) names) begin n /\
    forall fuel, (List.length names < fuel)%nat ->
      find_singles_to_singles fuel (fun s => existsb (String.eqb s) names) base output o =
      Ok (map (fun k => (fname base k ext, fname output k outext)) (numbers begin n)).
Proof.
  intros begin e ext outext.
  destruct (find_singles_finite names base begin e ext) as (n & Hn & Hr & Hs).
  exists n. split; [exact Hr|]. intros fuel Hf. unfold find_singles_to_singles.
  change (dflt 1 (o_begin o)) with begin. change (dflt Inf (o_end o)) with e.
  change (dflt ".dat" (o_ext o)) with ext. fold outext.
  rewrite Hs by lia. cbn [rbind]. rewrite zip_next_ok.
  - rewrite map_length, numbers_length, combine_map_same. reflexivity.
  - intros k Hk. rewrite map_length, numbers_length in Hk. apply le_bound_iff.
    destruct Hr as [R _]. apply (R (Z.of_nat k)). lia.
Qed.

Lemma zip_next_snd {A} (l : list A) base e ext : forall num pairs, zip_next l base e ext num = Ok pairs ->
  map snd pairs = map (fun k => fname base k ext) (numbers num (List.length l)).
Proof.
  induction l as [|a l IH]; intros num pairs; cbn [zip_next].
  - intros H. injection H as <-. reflexivity.
  - unfold gen_next. destruct (le_bound num e); [|discriminate].
    destruct (zip_next l base e ext (num + 1)) as [r|] eqn:E; cbn [rbind]; [|discriminate].
    intros H. injection H as <-. cbn [map snd List.length numbers]. f_equal. apply IH. exact E.
Qed.

Lemma singles_outputs_distinct fuel fs base output o pairs :
  find_singles_to_singles fuel fs base output o = Ok pairs -> NoDup (map snd pairs).
Proof.
  unfold find_singles_to_singles.
  destruct (find_datamap_singles _ _ _ _ _ _) as [[p w]|]; cbn [rbind]; [|discriminate].
  intros H. apply zip_next_snd in H. rewrite H. apply names_nodup.
Qed.

Lemma groups_outputs_distinct fuel fs base output g rolling o pairs :
  find_groups_to_singles fuel fs base output g rolling o = Ok pairs -> NoDup (map snd pairs).
Proof.
  unfold find_groups_to_singles.
  match goal with |- context [rbind ?x _] => destruct x as [b|]; cbn [rbind]; [|discriminate] end.
  destruct (find_datamap_groups _ _ _ _ _ _ _ _) as [p|]; cbn [rbind]; [|discriminate].
  intros H. apply zip_next_snd in H. rewrite H. apply names_nodup.
Qed.

Lemma in_names_good names base e ext n begin :
  run_length (fun z => match e with Upto m => z <= m | Inf => True end /\ In (fname base z ext) names) begin n ->
  run_length (good (fun s => existsb (String.eqb s) names) base e ext) begin n.
Proof.
  intros [R1 R2].
  assert (Q : forall z, good (fun s => existsb (String.eqb s) names) base e ext z <->
        (match e with Upto m => z <= m | Inf => True end /\ In (fname base z ext) names)).
  { intros z. unfold good. rewrite existsb_exists. split; intros [A B]; split; auto.
    - destruct B as (x & Hx & E). apply String.eqb_eq in E. subst; auto.
    - eexists. split; [exact B|apply String.eqb_refl]. }
  split.
  + intros k Hk. apply Q. auto.
  + intros H. apply R2. apply Q. exact H.
Qed.

Lemma nth_error_combine {A B} (l : list A) (m : list B) i a b :
  nth_error l i = Some a -> nth_error m i = Some b -> nth_error (combine l m) i = Some (a, b).
Proof.
  revert l m; induction i as [|i IH]; intros [|x l] [|y m]; simpl; try discriminate.
  - congruence.
  - apply IH.
Qed.

Section Groups.
Variables (names : list string) (base output : string) (M : nat) (o : fopts).
Hypothesis HM : (0 < M)%nat.
Let begin := match o_begin o with Some b => b | None => 1 end.
Let e := match o_end o with Some e => e | None => Inf end.
Let ext := match o_ext o with Some x => x | None => ".dat" end.
Let outext := match o_outext o with Some x => x | None => ext end.
Let fs := fun s => existsb (String.eqb s) names.

Lemma seq_nth_error a n i : (i < n)%nat -> nth_error (seq a n) i = Some (a + i)%nat.
Proof.
  revert a i; induction n as [|n IH]; intros a [|i] H; simpl; try lia.
  - f_equal. lia.
  - rewrite IH by lia. f_equal. lia.
Qed.

Lemma groups_to_singles_gen (rolling : bool) n cnt (step := if rolling then 1%nat else M) out0 :
  run_length (fun z => match e with Upto m => z <= m | Inf => True end /\ In (fname base z ext) names) begin n ->
  (forall i, (i < cnt)%nat -> (i * step + M <= n)%nat) -> (n < cnt * step + M)%nat -> (cnt <= n)%nat -> (n <= List.length names)%nat ->
  (if rolling then Ok begin else if Z.of_nat M =? 0 then Err ZeroDivErr else Ok (ceil_div begin (Z.of_nat M))) = Ok out0 ->
  exists pairs,
    (forall fuel, (List.length names + 1 < fuel)%nat ->
      find_groups_to_singles fuel fs base output (Z.of_nat M) rolling o = Ok pairs) /\
    List.length pairs = cnt /\
    forall i, (i < cnt)%nat ->
      nth_error pairs i = Some (map (fun k => fname base k ext) (numbers (begin + Z.of_nat (i * step)) M),
                                fname output (out0 + Z.of_nat i) outext).
Proof.
  intros Hr H1 H2 H3 H4 H5.
  eexists. split; [|split].
  - intros fuel Hf. unfold find_groups_to_singles, pop_fileopts. cbn [f_begin f_end f_ext f_outext].
    change (dflt 1 (o_begin o)) with begin. change (dflt Inf (o_end o)) with e.
    change (dflt ".dat" (o_ext o)) with ext. change (dflt ext (o_outext o)) with outext.
    rewrite H5. cbn [rbind]. unfold find_datamap_groups.
    pose proof (yield_groups_run fs base e ext M rolling cnt HM begin n fuel (in_names_good _ _ _ _ _ _ Hr)) as Y.
    cbv zeta in Y. fold step in Y. rewrite Y by (auto; lia). cbn [rbind].
    rewrite zip_next_ok by reflexivity. reflexivity.
  - rewrite combine_length, !map_length, numbers_length, seq_length. apply Nat.min_id.
  - intros i Hi. apply nth_error_combine.
    + erewrite map_nth_error; [|apply seq_nth_error; exact Hi]. reflexivity.
    + rewrite map_length, seq_length. erewrite map_nth_error; [|apply numbers_nth; exact Hi]. reflexivity.
Qed.

Lemma groups_to_singles_plain :
  exists n cnt,
    run_length (fun z => match e with Upto m => z <= m | Inf => True end /\ In (fname base z ext) names) begin n /\
    cnt = (n / M)%nat /\
    exists pairs,
    (forall fuel, (List.length names + 1 < fuel)%nat ->
      find_groups_to_singles fuel fs base output (Z.of_nat M) false o = Ok pairs) /\
    List.length pairs = cnt /\
    forall i, (i < cnt)%nat ->
      let N := begin + Z.of_nat (i * M) in
      exists K, Z.of_nat M * (K - 1) < N <= Z.of_nat M * K /\
      nth_error pairs i = Some (map (fun k => fname base k ext) (numbers N M), fname output K outext).
Proof.
  destruct (find_singles_finite names base begin e ext) as (n & Hn & Hr & _).
  exists n, (n / M)%nat. split; [exact Hr|]. split; [reflexivity|].
  destruct (groups_count_plain M n HM) as [G1 G2].
  assert (G3 : (n / M <= n)%nat) by (apply Nat.div_le_upper_bound; nia).
  destruct (groups_to_singles_gen false n (n / M) (ceil_div begin (Z.of_nat M)) Hr) as (pairs & P1 & P2 & P3); auto.
  { replace (Z.of_nat M =? 0) with false by lia. reflexivity. }
  exists pairs. split; [exact P1|]. split; [exact P2|]. intros i Hi N.
  exists (ceil_div begin (Z.of_nat M) + Z.of_nat i). split.
  - rewrite <- ceil_div_shift by lia. unfold N. rewrite Nat2Z.inj_mul. apply ceil_div_spec. lia.
  - apply P3. exact Hi.
Qed.

Lemma groups_to_singles_rolling :
  exists n cnt,
    run_length (fun z => match e with Upto m => z <= m | Inf => True end /\ In (fname base z ext) names) begin n /\
    cnt = (n + 1 - M)%nat /\
    exists pairs,
    (forall fuel, (List.length names + 1 < fuel)%nat ->
      find_groups_to_singles fuel fs base output (Z.of_nat M) true o = Ok pairs) /\
    List.length pairs = cnt /\
    forall i, (i < cnt)%nat ->
      let N := begin + Z.of_nat i in
      nth_error pairs i = Some (map (fun k => fname base k ext) (numbers N M), fname output N outext).
Proof.
  destruct (find_singles_finite names base begin e ext) as (n & Hn & Hr & _).
  exists n, (n + 1 - M)%nat. split; [exact Hr|]. split; [reflexivity|].
  destruct (groups_to_singles_gen true n (n + 1 - M) begin Hr) as (pairs & P1 & P2 & P3); try (intros; lia); auto.
  exists pairs. split; [exact P1|]. split; [exact P2|]. intros i Hi N.
  rewrite (P3 i Hi). rewrite Nat.mul_1_r. reflexivity.
Qed.
End Groups.

(** Disk *)
Lemma backup_smallest d p chunks c : wf d -> lookup (files d) p = Some c ->
  exists j d', (1 <= j)%N /\ do_call d (p, chunks) = Ok d' /\
    exists_path d (backup_path p j) = false /\
    (forall k, (1 <= k < j)%N -> exists_path d (backup_path p k) = true) /\
    lookup (files d') (backup_path p j) = Some c /\
    lookup (files d') p = Some (String.concat "" chunks) /\
    (forall q, q <> p -> q <> backup_path p j -> lookup (files d') q = lookup (files d) q).
Proof.
  intros Hwf Hc.
  destruct (backup_name_spec d p) as [(E & _)|(E & j & Hj & Hb & Hfree & Hmin)].
  { unfold exists_path in E. rewrite Hc in E. discriminate. }
  exists j. destruct (do_call_spec d p chunks Hwf) as (d' & Hd & _ & _ & L & _). exists d'.
  split; [exact Hj|]. split; [exact Hd|]. split; [exact Hfree|]. split; [exact Hmin|].
  revert Hd. unfold do_call, write_ops, prepare_ops. cbn [fst snd]. rewrite Hb. cbn [rbind].
  destruct (path_eqb_spec (backup_path p j) p) as [K|K]; [exfalso; exact (backup_neq _ _ K)|].
  intros Hd. injection Hd as Hd.
  assert (D : exists d0, files d0 = files d /\
     d' = set_file (exec_op d0 (Rename p (backup_path p j))) p (String.concat "" chunks)).
  { destruct (existsb (String.eqb (fst p)) (dirs d)).
    - exists d. split; [reflexivity|]. rewrite <- Hd. unfold exec_ops. cbn [List.app fold_left].
      exact (exec_appends p chunks (exec_op d (Rename p (backup_path p j))) "").
    - exists (exec_op d (Makedirs (fst p))). split; [reflexivity|]. rewrite <- Hd. unfold exec_ops. cbn [List.app fold_left].
      exact (exec_appends p chunks (exec_op (exec_op d (Makedirs (fst p))) (Rename p (backup_path p j))) ""). }
  destruct D as (d0 & F0 & D).
  assert (FR : files (exec_op d0 (Rename p (backup_path p j))) =
     (backup_path p j, c) :: remove (remove (files d) p) (backup_path p j)).
  { cbn [exec_op]. rewrite F0, Hc. reflexivity. }
  assert (B : backup_path p j <> p) by exact K.
  split; [|split].
  - rewrite D, lookup_set_neq by auto. rewrite FR. cbn [lookup]. rewrite path_eqb_refl. reflexivity.
  - exact L.
  - intros q Hq1 Hq2. rewrite D, lookup_set_neq by auto. rewrite FR. cbn [lookup].
    destruct (path_eqb_spec q (backup_path p j)); [contradiction|].
    rewrite !lookup_remove_neq by auto. reflexivity.
Qed.

Lemma crash_safe cs d p chunks : wf d ->
  exists d0 ops, do_calls d cs = Ok d0 /\ write_ops d0 p chunks = Ok ops /\
    forall k, let d1 := exec_ops d0 (firstn k ops) in
      sub_multiset (contents d ++ map text_of cs) (contents d1) /\
      (forall q, q <> p -> exists_path d0 q = true -> lookup (files d1) q = lookup (files d0) q).
Proof.
  intros Hwf. destruct (do_calls_spec cs d Hwf) as (d0 & E & W & P & _).
  destruct (call_prefix d0 p chunks W) as (ops & Hops & H). exists d0, ops. split; [exact E|]. split; [exact Hops|].
  intros k d1. destruct (H (firstn k ops) (skipn k ops)) as (_ & (extra & Q & _) & F & _).
  { symmetry. apply firstn_skipn. }
  split; [|exact F]. exists extra. unfold d1. rewrite Q, P. reflexivity.
Qed.

Lemma concurrent_loss :
  exists (d : disk) (c1 c2 : call) (sched : list bool),
    wf d /\ fst c1 = fst c2 /\
    let '(d', a, b) := run_two sched d (Start c1) (Start c2) in
    a = Running [] /\ b = Running [] /\
    exists old, In old (contents d) /\ ~ In old (contents d').
Proof.
  exists {| files := [((".", "x"), "old")]; dirs := ["."] |}, ((".", "x"), ["A"]), ((".", "x"), ["B"]),
    [true; false; true; true; true; false; false; false].
  split. { unfold wf. simpl. repeat constructor. simpl. tauto. }
  split; [reflexivity|]. vm_compute. split; [reflexivity|]. split; [reflexivity|].
  exists "old". split; [left; reflexivity|]. intuition discriminate.
Qed.
