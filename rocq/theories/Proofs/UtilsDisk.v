From Coq Require Import List ZArith String Ascii Bool Lia Permutation.
From Coq Require Import ZifyBool ZifyNat ZifyN.
From Verif.Base Require Import Res.
From Verif.Model Require Import Utils.
From Verif.Spec Require Import FilesSpec DiskSpec.
From Verif.Proofs Require Import UtilsFiles.
Import ListNotations.
Local Open Scope string_scope.

Lemma path_eqb_spec p q : reflect (p = q) (path_eqb p q).
Proof.
  unfold path_eqb. destruct p as [a b], q as [c d]; cbn [fst snd].
  destruct (String.eqb_spec a c), (String.eqb_spec b d); simpl; constructor; congruence.
Qed.
Lemma path_eqb_refl p : path_eqb p p = true.
Proof. destruct (path_eqb_spec p p); congruence. Qed.

Lemma lookup_none l p : lookup l p = None <-> ~ In p (map fst l).
Proof.
  induction l as [|[q c] l IH]; simpl; [tauto|]. destruct (path_eqb_spec p q) as [->|N].
  - split; [discriminate|]. intros H. exfalso. apply H. auto.
  - rewrite IH. intuition congruence.
Qed.
Lemma exists_path_iff d p : exists_path d p = true <-> In p (keys d).
Proof.
  unfold exists_path, keys. destruct (lookup (files d) p) eqn:E.
  - split; auto. intros _. destruct (in_dec (fun x y : path => ltac:(decide equality; apply string_dec)) p (map fst (files d))) as [H|H]; auto.
    apply lookup_none in H. congruence.
  - apply lookup_none in E. split; [discriminate|contradiction].
Qed.
Lemma remove_none l p : lookup l p = None -> remove l p = l.
Proof.
  induction l as [|[q c] l IH]; simpl; auto. destruct (path_eqb p q); [discriminate|].
  intros H. rewrite IH; auto.
Qed.
Lemma remove_keys l p q : In q (map fst (remove l p)) <-> In q (map fst l) /\ q <> p.
Proof.
  induction l as [|[r c] l IH]; simpl; [tauto|]. destruct (path_eqb_spec p r) as [->|N].
  - rewrite IH. intuition congruence.
  - simpl. rewrite IH. intuition congruence.
Qed.
Lemma remove_nodup l p : NoDup (map fst l) -> NoDup (map fst (remove l p)).
Proof.
  induction l as [|[r c] l IH]; simpl; auto. intros H. inversion H; subst.
  destruct (path_eqb_spec p r); auto. simpl. constructor; auto.
  intros K. apply remove_keys in K. tauto.
Qed.
Lemma remove_perm l p c : NoDup (map fst l) -> lookup l p = Some c -> Permutation l ((p, c) :: remove l p).
Proof.
  induction l as [|[r x] l IH]; simpl; [discriminate|]. intros H E. inversion H; subst.
  destruct (path_eqb_spec p r) as [->|N].
  - injection E as ->. rewrite remove_none; [reflexivity|]. apply lookup_none. auto.
  - rewrite (IH H3 E) at 1. apply perm_swap.
Qed.
Lemma lookup_remove_eq l p : lookup (remove l p) p = None.
Proof. apply lookup_none. intros H. apply remove_keys in H. tauto. Qed.
Lemma lookup_remove_neq l p q : q <> p -> lookup (remove l p) q = lookup l q.
Proof.
  intros N. induction l as [|[r c] l IH]; simpl; auto.
  destruct (path_eqb_spec p r) as [->|N2].
  - rewrite IH. destruct (path_eqb_spec q r); congruence.
  - simpl. rewrite IH. reflexivity.
Qed.
Lemma remove_idem l p : remove (remove l p) p = remove l p.
Proof. apply remove_none, lookup_remove_eq. Qed.

(** *** Backup names *)
Lemma backup_inj p i j : backup_path p i = backup_path p j -> i = j.
Proof.
  unfold backup_path. intros H. injection H as H.
  apply app_string_inv_l in H. injection H as H.
  apply app_string_inv_r in H. apply dec_inj. exact H.
Qed.
Lemma backup_neq p i : backup_path p i <> p.
Proof.
  destruct p as [d f]. unfold backup_path. cbn [fst snd]. intros H. injection H as H.
  apply (f_equal String.length) in H. simpl in H. rewrite !app_string_length in H. simpl in H.
  rewrite ?app_string_length in H. lia.
Qed.

Lemma free_backup_exists d p :
  exists j, (1 <= j <= N.of_nat (S (List.length (files d))))%N /\
    exists_path d (backup_path p j) = false /\
    forall k, (1 <= k < j)%N -> exists_path d (backup_path p k) = true.
Proof.
  set (F := S (List.length (files d))).
  (* least free index by bounded search *)
  assert (S1 : forall n, (forall k, (1 <= k <= N.of_nat n)%N -> exists_path d (backup_path p k) = true) \/
     exists j, (1 <= j <= N.of_nat n)%N /\ exists_path d (backup_path p j) = false /\
       forall k, (1 <= k < j)%N -> exists_path d (backup_path p k) = true).
  { induction n as [|n IH].
    - left. intros k Hk. lia.
    - destruct IH as [IH|(j & H1 & H2 & H3)].
      + destruct (exists_path d (backup_path p (N.of_nat (S n)))) eqn:E.
        * left. intros k Hk. destruct (N.eq_dec k (N.of_nat (S n))) as [->|]; auto. apply IH. lia.
        * right. exists (N.of_nat (S n)). split; [lia|]. split; auto. intros k Hk. apply IH. lia.
      + right. exists j. split; [lia|]. auto. }
  destruct (S1 F) as [A|B]; auto. exfalso.
  set (l := map (fun k => backup_path p (N.of_nat k)) (seq 1 F)).
  assert (ND : NoDup l).
  { apply FinFun.Injective_map_NoDup; [|apply seq_NoDup]. intros x y H. apply backup_inj in H. lia. }
  assert (IN : incl l (keys d)).
  { intros q Hq. apply in_map_iff in Hq. destruct Hq as (k & <- & Hk). apply in_seq in Hk.
    apply exists_path_iff. apply A. unfold F in *. lia. }
  pose proof (NoDup_incl_length ND IN) as K. unfold l, keys in K. rewrite !map_length, seq_length in K. unfold F in K. lia.
Qed.

Lemma backup_loop_finds d p j : forall fuel i,
  (i <= j)%N -> (N.to_nat (j - i) < fuel)%nat ->
  (forall k, (i <= k < j)%N -> exists_path d (backup_path p k) = true) ->
  exists_path d (backup_path p j) = false ->
  backup_loop fuel d p (i + 1) (backup_path p i) = Ok (backup_path p j).
Proof.
  induction fuel as [|fuel IH]; intros i Hi Hf H1 H2; [lia|]. cbn [backup_loop].
  destruct (N.eq_dec i j) as [->|Ne].
  - rewrite H2. reflexivity.
  - rewrite H1 by lia. apply IH; auto; try lia. intros k Hk. apply H1. lia.
Qed.

Lemma backup_name_spec d p :
  (exists_path d p = false /\ backup_name d p = Ok p) \/
  (exists_path d p = true /\ exists j, (1 <= j)%N /\ backup_name d p = Ok (backup_path p j) /\
     exists_path d (backup_path p j) = false /\
     forall k, (1 <= k < j)%N -> exists_path d (backup_path p k) = true).
Proof.
  unfold backup_name. cbn [backup_loop]. destruct (exists_path d p) eqn:E; [right|left; auto]. split; auto.
  destruct (free_backup_exists d p) as (j & H1 & H2 & H3). exists j. split; [lia|]. split; [|auto].
  apply (backup_loop_finds d p j (S (List.length (files d))) 1); auto; lia.
Qed.

(** *** Effect of a call *)
Lemma concat_fold l : forall acc, fold_left append l acc = acc ++ String.concat "" l.
Proof.
  induction l as [|x l IH]; intros acc; simpl.
  - induction acc as [|a acc IH]; simpl; congruence.
  - rewrite IH. rewrite app_string_assoc. f_equal. destruct l as [|y l]; [|reflexivity].
    simpl. clear. induction x as [|a x IH]; simpl; congruence.
Qed.

Lemma set_set d p a b : set_file (set_file d p a) p b = set_file d p b.
Proof. unfold set_file. simpl. rewrite path_eqb_refl, remove_idem. reflexivity. Qed.
Lemma lookup_set_eq d p a : lookup (files (set_file d p a)) p = Some a.
Proof. simpl. rewrite path_eqb_refl. reflexivity. Qed.
Lemma lookup_set_neq d p a q : q <> p -> lookup (files (set_file d p a)) q = lookup (files d) q.
Proof. intros N. simpl. destruct (path_eqb_spec q p); [contradiction|]. apply lookup_remove_neq. auto. Qed.

Lemma exec_appends p chunks : forall d a,
  exec_ops (set_file d p a) (map (Append p) chunks) = set_file d p (a ++ String.concat "" chunks).
Proof.
  intros d a. rewrite <- concat_fold. revert a.
  induction chunks as [|c chunks IH]; intros a; [reflexivity|].
  unfold exec_ops in *. cbn [map fold_left]. cbn [exec_op]. rewrite lookup_set_eq, set_set. apply IH.
Qed.

Lemma wf_set d p a : wf d -> wf (set_file d p a).
Proof.
  unfold wf, keys, set_file. simpl. intros H. constructor.
  - intros K. apply remove_keys in K. tauto.
  - apply remove_nodup. auto.
Qed.

(** Disk after the preparation step, before the file is opened. *)
Lemma prepare_effect d p : wf d ->
  exists ops, prepare_ops d p = Ok ops /\
    forall pre post, ops = (pre ++ post)%list ->
      let d1 := exec_ops d pre in
      wf d1 /\ Permutation (contents d1) (contents d) /\
      (forall q, q <> p -> exists_path d q = true -> lookup (files d1) q = lookup (files d) q) /\
      (post = [] -> exists_path d1 p = false).
Proof.
  intros Hwf. unfold prepare_ops.
  destruct (backup_name_spec d p) as [(E & ->)|(E & j & Hj & -> & Hfree & Hmin)]; cbn [rbind].
  - rewrite path_eqb_refl. eexists. split; [reflexivity|].
    intros pre post Hp; set (d1 := exec_ops d pre) in *; cbv zeta.
    assert (Hd1 : files d1 = files d).
    { unfold d1. destruct (existsb (String.eqb (fst p)) (dirs d)); simpl in Hp;
      repeat match goal with
      | H : [] = (?a ++ ?b)%list |- _ => symmetry in H; apply app_eq_nil in H; destruct H; subst
      end; try reflexivity.
      destruct pre as [|x pre]; [reflexivity|]. injection Hp as <- Hp. symmetry in Hp. apply app_eq_nil in Hp.
      destruct Hp; subst. reflexivity. }
    unfold wf, keys, contents, exists_path in *. rewrite Hd1. auto.
  - destruct (path_eqb_spec (backup_path p j) p) as [Hb|Hb]; [exfalso; exact (backup_neq _ _ Hb)|].
    eexists. split; [reflexivity|]. intros pre post Hp; set (d1 := exec_ops d pre) in *; cbv zeta.
    assert (L : exists c, lookup (files d) p = Some c).
    { unfold exists_path in E. destruct (lookup (files d) p); [eauto|discriminate]. }
    destruct L as [c Hc].
    set (fin := (backup_path p j, c) :: remove (remove (files d) p) (backup_path p j)).
    assert (Hd1 : (files d1 = files d /\ post <> []) \/ files d1 = fin).
    { unfold d1. destruct (existsb (String.eqb (fst p)) (dirs d)); simpl in Hp.
      - destruct pre as [|x pre]; [left; split; [reflexivity|]; intros ->; discriminate|].
        injection Hp as <- Hp. symmetry in Hp. apply app_eq_nil in Hp. destruct Hp; subst.
        right. simpl. rewrite Hc. reflexivity.
      - destruct pre as [|x pre]; [left; split; [reflexivity|]; intros ->; discriminate|].
        injection Hp as <- Hp. destruct pre as [|x pre]; [left; split; [reflexivity|]; intros ->; discriminate|].
        injection Hp as <- Hp. symmetry in Hp. apply app_eq_nil in Hp. destruct Hp; subst.
        right. simpl. rewrite Hc. reflexivity. }
    assert (Hfree' : lookup (files d) (backup_path p j) = None).
    { unfold exists_path in Hfree. destruct (lookup (files d) (backup_path p j)); [discriminate|reflexivity]. }
    assert (Efin : fin = (backup_path p j, c) :: remove (files d) p).
    { unfold fin. f_equal. apply remove_none. rewrite lookup_remove_neq; auto. }
    destruct Hd1 as [[Hd1 Hpost]|Hd1]; unfold wf, keys, contents, exists_path in *; rewrite Hd1.
    + split; auto. split; auto. split; auto. intros ->. contradiction.
    + rewrite Efin. split; [|split; [|split]].
      * simpl. constructor; [|apply remove_nodup; auto].
        intros K. apply remove_keys in K. apply lookup_none in Hfree'. tauto.
      * simpl. symmetry. etransitivity. { apply Permutation_map. apply (remove_perm _ p c); auto. } reflexivity.
      * intros q Hq Hex. simpl. destruct (path_eqb_spec q (backup_path p j)) as [->|N].
        -- rewrite Hfree' in Hex. discriminate.
        -- apply lookup_remove_neq. auto.
      * intros _. simpl. destruct (path_eqb_spec p (backup_path p j)) as [K|K]; [congruence|].
        rewrite lookup_remove_eq. reflexivity.
Qed.

Lemma prefix_split {A} (pre post a b : list A) : (pre ++ post = a ++ b)%list ->
  (exists a2, a = pre ++ a2 /\ post = a2 ++ b)%list \/ (exists b1, pre = a ++ b1 /\ b = b1 ++ post)%list.
Proof.
  revert a. induction pre as [|x pre IH]; intros a H; simpl in *.
  - left. exists a. auto.
  - destruct a as [|y a]; simpl in *.
    + right. exists (x :: pre). simpl. auto.
    + injection H as -> H. destruct (IH a H) as [(a2 & -> & ->)|(b1 & -> & ->)].
      * left. exists a2. auto.
      * right. exists b1. auto.
Qed.

Lemma prefix_map {A B} (f : A -> B) l pre post : (map f l = pre ++ post)%list ->
  exists l1 l2, (l = l1 ++ l2 /\ pre = map f l1 /\ post = map f l2)%list.
Proof.
  revert l. induction pre as [|x pre IH]; intros l H; simpl in *.
  - exists [], l. auto.
  - destruct l as [|a l]; simpl in H; [discriminate|]. injection H as <- H.
    destruct (IH l H) as (l1 & l2 & -> & -> & ->). exists (a :: l1), l2. auto.
Qed.

(** State after any prefix of the operations of a call. *)
Lemma call_prefix d p chunks : wf d ->
  exists ops, write_ops d p chunks = Ok ops /\
    forall pre post, ops = (pre ++ post)%list ->
      let d1 := exec_ops d pre in
      wf d1 /\ (exists extra, Permutation (contents d1) (contents d ++ extra) /\ List.length extra <= 1) /\
      (forall q, q <> p -> exists_path d q = true -> lookup (files d1) q = lookup (files d) q) /\
      (post = [] -> Permutation (contents d1) (contents d ++ [String.concat "" chunks]) /\
                    lookup (files d1) p = Some (String.concat "" chunks)).
Proof.
  intros Hwf. destruct (prepare_effect d p Hwf) as (ops & Hops & Heff).
  unfold write_ops. rewrite Hops. cbn [rbind]. eexists. split; [reflexivity|].
  intros pre post Hp; set (d1 := exec_ops d pre) in *; cbv zeta. symmetry in Hp. apply prefix_split in Hp.
  destruct Hp as [(a2 & E1 & E2)|(b1 & E1 & E2)].
  - destruct (Heff pre a2 E1) as (W & P & F & _). split; [exact W|]. split.
    { exists []. rewrite app_nil_r. split; [exact P|simpl; lia]. }
    split; [exact F|]. intros ->. symmetry in E2. apply app_eq_nil in E2. destruct E2 as [_ E2]. discriminate.
  - destruct (Heff ops [] ltac:(rewrite app_nil_r; reflexivity)) as (W & P & F & G).
    specialize (G eq_refl).
    destruct b1 as [|o b1].
    { rewrite app_nil_r in E1. subst pre. split; [exact W|]. split.
      { exists []. rewrite app_nil_r. split; [exact P|simpl; lia]. }
      split; [exact F|]. intros ->. discriminate. }
    injection E2 as <- E2. apply prefix_map in E2. destruct E2 as (l1 & l2 & -> & -> & Epost).
    assert (D1 : d1 = set_file (exec_ops d ops) p (String.concat "" l1)).
    { unfold d1. rewrite E1. unfold exec_ops. rewrite fold_left_app. cbn [fold_left exec_op].
      apply (exec_appends p l1 (fold_left exec_op ops d) ""). }
    rewrite D1.
    assert (PP : Permutation (contents (set_file (exec_ops d ops) p (String.concat "" l1)))
                             (contents d ++ [String.concat "" l1])).
    { unfold contents, set_file. simpl. rewrite remove_none.
      2:{ unfold exists_path in G. destruct (lookup _ p); [discriminate|reflexivity]. }
      unfold contents in P. rewrite P. apply Permutation_cons_append. }
    split; [apply wf_set; exact W|]. split.
    { exists [String.concat "" l1]. split; [exact PP|simpl; lia]. }
    split.
    { intros q Hq Hex. rewrite lookup_set_neq by auto. auto. }
    intros ->. assert (l2 = []) as -> by (destruct l2; [reflexivity|discriminate]).
    rewrite app_nil_r. split; [exact PP|]. apply lookup_set_eq.
Qed.

Lemma do_call_spec d p chunks : wf d ->
  exists d', do_call d (p, chunks) = Ok d' /\ wf d' /\
    Permutation (contents d') (contents d ++ [String.concat "" chunks]) /\
    lookup (files d') p = Some (String.concat "" chunks) /\
    (forall q, q <> p -> exists_path d q = true -> lookup (files d') q = lookup (files d) q).
Proof.
  intros Hwf. destruct (call_prefix d p chunks Hwf) as (ops & Hops & H).
  unfold do_call. cbn [fst snd]. rewrite Hops. cbn [rbind]. eexists. split; [reflexivity|].
  destruct (H ops [] ltac:(rewrite app_nil_r; reflexivity)) as (W & _ & F & G).
  destruct (G eq_refl) as [G1 G2]. auto.
Qed.

Lemma do_calls_spec cs : forall d, wf d ->
  exists d', do_calls d cs = Ok d' /\ wf d' /\
    Permutation (contents d') (contents d ++ map text_of cs) /\
    (forall p, (exists_path d p = true \/ In p (map fst cs)) ->
       lookup (files d') p = newest p cs (lookup (files d) p)).
Proof.
  induction cs as [|[q chunks] cs IH]; intros d Hwf; cbn [do_calls].
  - exists d. split; auto. split; auto. split; [simpl; rewrite app_nil_r; reflexivity|]. reflexivity.
  - destruct (do_call_spec d q chunks Hwf) as (d1 & E & W & P & L & F). rewrite E. cbn [rbind].
    destruct (IH d1 W) as (d' & E' & W' & P' & L'). exists d'. split; auto. split; auto. split.
    + rewrite P', P. rewrite <- app_assoc. reflexivity.
    + intros p Hp. cbn [newest fst]. destruct (path_eqb_spec p q) as [->|N].
      * rewrite L'; [rewrite L; reflexivity|]. left. unfold exists_path. rewrite L. reflexivity.
      * destruct Hp as [Hp|Hp].
        -- rewrite L'; [|left; unfold exists_path in *; rewrite F by auto; exact Hp]. rewrite F by auto. reflexivity.
        -- cbn [map In] in Hp. destruct Hp as [Hp|Hp]; [simpl in Hp; congruence|].
           rewrite L' by auto. destruct (exists_path d p) eqn:Ex.
           ++ rewrite F by auto. reflexivity.
           ++ clear - Hp N. revert Hp. generalize (lookup (files d1) p), (lookup (files d) p).
              induction cs as [|[r ch] cs IHc]; intros a b Hp; [contradiction|].
              cbn [map In fst] in Hp. cbn [newest fst]. destruct (path_eqb_spec p r) as [->|N2]; [reflexivity|].
              apply IHc. destruct Hp; [congruence|auto].
Qed.
