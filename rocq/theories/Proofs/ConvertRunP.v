(** Proofs about conversions which fail: Formats.convert_run. *)
From Coq Require Import String Ascii Permutation.
From Verif.Base Require Import QcX Res Np Bytes Sums ListX.
From Verif.Model Require Import Utils Text Gmx Simple Formats.
From Verif.Spec Require Import FilesSpec DiskSpec.
From Verif.Proofs Require Import UtilsFiles UtilsDisk UtilsTop FormatsP.
Local Open Scope list_scope.

Lemma write_unknown ft oth b d i : known_type ft = false -> write (Some ft) b oth d i = Err KeyErr.
Proof.
  unfold known_type, write. cbn [existsb]. rewrite !orb_false_iff. intros (E1 & E2 & E3 & E4 & _). rewrite E1, E2, E3, E4. reflexivity.
Qed.
Lemma convert_file_read fuel ft oth file : convert_file fuel ft oth file =
  rbind (convert_read fuel (match ft with Some s => s | None => "gmx"%string end) file)
        (fun p => write (Some (match ft with Some s => s | None => "gmx"%string end)) true oth (fst p) (snd p)).
Proof.
  unfold convert_file, convert_read. destruct (read_data_file fuel file) as [[d i]|]; [|reflexivity]. cbn [rbind]. destruct (finite_dict d) as [d'|]; [|reflexivity]. cbn [rbind].
  destruct (finite_info i) as [i'|e]; [reflexivity|]. destruct (_ || _)%bool; reflexivity.
Qed.
(** One file. *)
Lemma step_ok fuel ft oth d fi fo out : wf d -> convert_file fuel ft oth (option_map bytes_of (lookup (files d) fi)) = Ok out ->
  exists d', do_call d (fo, [string_of out]) = Ok d' /\ convert_step fuel ft oth d fi fo = (d', None).
Proof.
  intros Hw E. rewrite convert_file_read in E. unfold convert_step.
  destruct (convert_read fuel _ _) as [[data info]|]; [|discriminate]. cbn [rbind fst snd] in E.
  destruct (known_type _) eqn:Ek; [|rewrite (write_unknown _ _ _ _ _ Ek) in E; discriminate]. cbn [negb].
  unfold do_call, write_ops. cbn [fst snd]. destruct (prepare_effect d fo Hw) as (ops & -> & _). cbn [rbind]. rewrite E.
  eexists. split; [reflexivity|]. unfold exec_ops. rewrite fold_left_app. reflexivity.
Qed.
Lemma step_err fuel ft oth d fi fo err : wf d -> convert_file fuel ft oth (option_map bytes_of (lookup (files d) fi)) = Err err ->
  exists d', convert_step fuel ft oth d fi fo = (d', Some err) /\ wf d' /\ Permutation (contents d') (contents d) /\
    (forall q, q <> fo -> exists_path d q = true -> lookup (files d') q = lookup (files d) q) /\ (convert_read fuel (match ft with Some s => s | None => "gmx"%string end) (option_map bytes_of (lookup (files d) fi)) = Err err -> d' = d).
Proof.
  intros Hw E. rewrite convert_file_read in E. unfold convert_step.
  destruct (convert_read fuel _ _) as [[data info]|e]; cbn [rbind fst snd] in E.
  2:{ injection E as ->. exists d. repeat split; auto. }
  destruct (known_type _) eqn:Ek; cbn [negb].
  2:{ rewrite (write_unknown _ _ _ _ _ Ek) in E. injection E as <-. exists d. repeat split; auto. }
  destruct (prepare_effect d fo Hw) as (ops & -> & He). rewrite E. destruct (He ops [] ltac:(rewrite app_nil_r; reflexivity)) as (W & P & F & _).
  exists (exec_ops d ops). split; [reflexivity|]. split; [exact W|]. split; [exact P|]. split; [intros q N Hq; apply F; assumption|discriminate].
Qed.
Lemma convert_wf fuel ft oth : forall pairs d d', wf d -> convert fuel ft oth d pairs = Ok d' -> wf d'.
Proof.
  induction pairs as [|[fi fo] pairs IH]; intros d d' Hw H; cbn [convert] in H; [injection H as <-; exact Hw|].
  destruct (convert_file _ _ _ _) as [out|]; [|discriminate]. cbn [rbind] in H. destruct (do_call_spec d fo [string_of out] Hw) as (d1 & E & W & _). rewrite E in H. exact (IH d1 d' W H).
Qed.
(** Several files. *)
Lemma loop_app fuel ft oth l2 : forall l1 d d1, wf d -> convert fuel ft oth d l1 = Ok d1 -> convert_loop fuel ft oth d (l1 ++ l2) = convert_loop fuel ft oth d1 l2.
Proof.
  induction l1 as [|[fi fo] l1 IH]; intros d d1 Hw H; cbn [convert convert_loop app] in *; [injection H as <-; reflexivity|].
  destruct (convert_file _ _ _ _) as [out|] eqn:E; [|discriminate]. destruct (step_ok _ _ _ _ _ fo _ Hw E) as (d2 & Ed & ->). cbn [rbind] in H. rewrite Ed in H. cbn [rbind] in H.
  destruct (do_call_spec d fo [string_of out] Hw) as (d3 & E3 & W & _). rewrite Ed in E3. injection E3 as ->. exact (IH d3 d1 W H).
Qed.
Lemma loop_iff fuel ft oth : forall pairs d d', wf d -> (convert_loop fuel ft oth d pairs = (d', None) <-> convert fuel ft oth d pairs = Ok d').
Proof.
  induction pairs as [|[fi fo] pairs IH]; intros d d' Hw; cbn [convert convert_loop].
  - split; [intros H; injection H as ->; reflexivity|intros H; injection H as ->; reflexivity].
  - destruct (convert_file _ _ _ _) as [out|err] eqn:E.
    + destruct (step_ok _ _ _ _ _ fo _ Hw E) as (d2 & Ed & ->). cbn [rbind]. rewrite Ed. cbn [rbind].
      destruct (do_call_spec d fo [string_of out] Hw) as (d3 & E3 & W & _). rewrite Ed in E3. injection E3 as <-. apply IH, W.
    + destruct (step_err _ _ _ _ _ fo _ Hw E) as (d2 & -> & _). cbn [rbind]. split; intros H; discriminate.
Qed.
Lemma loop_err fuel ft oth : forall pairs d err, wf d -> ((exists d', convert_loop fuel ft oth d pairs = (d', Some err)) <-> convert fuel ft oth d pairs = Err err).
Proof.
  induction pairs as [|[fi fo] pairs IH]; intros d err Hw; cbn [convert convert_loop].
  - split; [intros (d' & H); discriminate|discriminate].
  - destruct (convert_file _ _ _ _) as [out|err'] eqn:E.
    + destruct (step_ok _ _ _ _ _ fo _ Hw E) as (d2 & Ed & ->). cbn [rbind]. rewrite Ed. cbn [rbind].
      destruct (do_call_spec d fo [string_of out] Hw) as (d3 & E3 & W & _). rewrite Ed in E3. injection E3 as <-. apply IH, W.
    + destruct (step_err _ _ _ _ _ fo _ Hw E) as (d2 & -> & _). cbn [rbind]. split; [intros (d' & H); congruence|intros H; exists d2; congruence].
Qed.
(** [convert_run] and [convert_all] agree. *)
Lemma run_iff ffuel fuel ft d base output o d' : wf d -> (convert_run ffuel fuel ft d base output o = (d', None) <-> convert_all ffuel fuel ft d base output o = Ok d').
Proof.
  intros Hw. unfold convert_run, convert_all. destruct (find_singles_to_singles _ _ _ _ _) as [pairs|e]; cbn [rbind]; [apply loop_iff, Hw|split; discriminate].
Qed.
Lemma run_err ffuel fuel ft d base output o err : wf d -> ((exists d', convert_run ffuel fuel ft d base output o = (d', Some err)) <-> convert_all ffuel fuel ft d base output o = Err err).
Proof.
  intros Hw. unfold convert_run, convert_all. destruct (find_singles_to_singles _ _ _ _ _) as [pairs|e]; cbn [rbind]; [apply loop_err, Hw|].
  split; [intros (d' & H); congruence|intros H; exists d; congruence].
Qed.
Lemma run_frames ffuel fuel ft d base output o n m : wf d ->
  let begin := match o_begin o with Some b => b | None => 1%Z end in
  let e := match o_end o with Some e => e | None => Inf end in
  let ext := match o_ext o with Some x => x | None => ".dat"%string end in
  let outext := match o_outext o with Some x => x | None => ext end in
  let oth := match o_outext o with Some _ => true | None => false end in
  let src k := os_path (fname base k ext) in let dst k := os_path (fname output k outext) in
  let last := (begin + Z.of_nat m)%Z in
  no_slash outext -> (n < ffuel)%nat ->
  run_length (fun z => match e with Upto m => (z <= m)%Z | Inf => True end /\ exists_path d (src z) = true) begin n ->
  (forall j k, (begin <= j < k)%Z -> (k < begin + Z.of_nat n)%Z -> dst j <> src k) -> (m < n)%nat ->
  (forall k, (begin <= k < last)%Z -> exists c out, lookup (files d) (src k) = Some c /\ convert_file fuel ft oth (Some (bytes_of c)) = Ok out) ->
  forall err, convert_file fuel ft oth (option_map bytes_of (lookup (files d) (src last))) = Err err ->
  exists d', convert_run ffuel fuel ft d base output o = (d', Some err) /\ wf d' /\
    (forall k, (begin <= k < last)%Z -> exists c out, lookup (files d) (src k) = Some c /\
       convert_file fuel ft oth (Some (bytes_of c)) = Ok out /\ lookup (files d') (dst k) = Some (string_of out)) /\
    (forall q, exists_path d q = true -> (forall k, (begin <= k <= last)%Z -> q <> dst k) -> lookup (files d') q = lookup (files d) q) /\
    exists written, length written = m /\ Permutation (contents d') (contents d ++ written).
Proof.
  intros Hw begin e ext outext oth src dst last Hs Hf Hr Hov Hm Hok err He.
  unfold convert_run, pop_fileopts. cbv zeta. cbn [f_begin f_end f_ext f_outext]. fold begin e ext outext.
  fold oth. rewrite (singles_run _ base output begin e ext outext n Hr ffuel Hf). rewrite map_map. cbn [fst snd].
  change (fun k => (os_path (fname base k ext), os_path (fname output k outext))) with (fun k => (src k, dst k)).
  replace n with (m + S (n - S m))%nat by lia. rewrite numbers_app, map_app. fold last. cbn [numbers map].
  set (pairs := map (fun k => (src k, dst k)) (numbers begin m)).
  assert (map fst pairs = map src (numbers begin m)) as Ef by (unfold pairs; rewrite map_map; reflexivity).
  assert (map snd pairs = map dst (numbers begin m)) as Es by (unfold pairs; rewrite map_map; reflexivity).
  destruct (lookup_conv fuel ft oth pairs d Hw) as (d1 & E & Hw1 & R & O & W & LW & PW).
  - rewrite Es. apply FinFun.Injective_map_NoDup; [|apply numbers_nodup]. intros j k H. exact (os_path_fname_inj output outext j k Hs H).
  - rewrite Ef. intros p Hp. apply in_map_iff in Hp. destruct Hp as (k & <- & Hk). apply in_numbers in Hk. apply Hok. exact Hk.
  - unfold pairs. assert (forall i b, (begin <= b)%Z -> (b + Z.of_nat i <= begin + Z.of_nat m)%Z -> ForallOrdPairs (fun a b => snd a <> fst b) (map (fun k => (src k, dst k)) (numbers b i))) as H.
    { clear -Hov Hm. induction i as [|i IH]; intros b Hb Hi; [constructor|]. cbn [numbers map]. constructor; [|apply IH; lia].
      apply Forall_forall. intros p Hp. apply in_map_iff in Hp. destruct Hp as (k & <- & Hk). apply in_numbers in Hk. cbn [fst snd]. apply Hov; lia. }
    apply H; lia.
  - rewrite (loop_app _ _ _ _ _ _ _ Hw E). cbn [convert_loop].
    assert (forall k, (begin <= k < begin + Z.of_nat n)%Z -> exists_path d (src k) = true) as Hex.
    { intros k Hk. destruct Hr as [Hr _]. specialize (Hr (k - begin)%Z ltac:(lia)). replace (begin + (k - begin))%Z with k in Hr by lia. apply Hr. }
    assert (lookup (files d1) (src last) = lookup (files d) (src last)) as El.
    { apply O; [apply exists_path_iff, Hex; unfold last; lia|]. rewrite Es. intros H. apply in_map_iff in H. destruct H as (k & E' & Hk). apply in_numbers in Hk. apply (Hov k last); [unfold last; lia|unfold last; lia|exact E']. }
    rewrite <- El in He. destruct (step_err fuel ft oth d1 (src last) (dst last) err Hw1 He) as (d' & -> & Hw' & P & F & _).
    exists d'. split; [reflexivity|]. split; [exact Hw'|]. split; [|split].
    + intros k Hk. destruct (R (src k) (dst k)) as (c & Lc & out & Co & Lo).
      { unfold pairs. apply in_map_iff. exists k. split; [reflexivity|]. apply in_numbers. exact Hk. }
      exists c, out. split; [exact Lc|]. split; [exact Co|]. rewrite F; [exact Lo| |unfold exists_path; rewrite Lo; reflexivity].
      intros C. apply (os_path_fname_inj output outext) in C; [|exact Hs]. lia.
    + intros q Hq Nq. assert (lookup (files d1) q = lookup (files d) q) as Eq.
      { apply O; [apply exists_path_iff; exact Hq|]. rewrite Es. intros H. apply in_map_iff in H. destruct H as (k & E' & Hk). apply in_numbers in Hk. apply (Nq k); [fold last in Hk; lia|auto]. }
      rewrite F; [exact Eq|apply Nq; unfold last; lia|unfold exists_path; rewrite Eq; exact Hq].
    + exists W. split; [rewrite LW; unfold pairs; rewrite map_length, numbers_length; reflexivity|]. rewrite P. exact PW.
Qed.
