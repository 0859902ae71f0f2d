(** Files of collected interfaces. *)
From Coq Require Import String Ascii Permutation.
From Verif.Base Require Import QcX Res Np Bytes.
From Verif.Model Require Utils Bins Flow Interface Spreading Collect Average.
From Verif.Model Require Import Bins Text Gmx Simple Formats Table InterfaceFiles.
From Verif.Spec Require Import FilesSpec DiskSpec.
From Verif.Proofs Require Import UtilsFiles UtilsDisk UtilsTop TextP SimpleP FormatsP TableP CollectP CollectRunP.
Import Utils(disk, path, files, lookup, fopts, exists_path, fname, bound, Upto, Inf, do_call, o_begin, o_end, o_ext, o_outext).
Local Open Scope list_scope.
Local Notation length := List.length.

Lemma bytes_string b : bytes_of (string_of b) = b.
Proof. apply list_ascii_of_string_of_list_ascii. Qed.

Section Run.
Variables (fuel : nat) (hdr : string -> list bytes) (cutoff radius : option Qc) (nb : Z) (lims : option Qc * option Qc) (o : Collect.recentre).
Definition state := option (list (option Spreading.pinfo) * Collect.yindex).
(** The arrays and what is remembered after the last map. *)
Fixpoint with_state (maps : list (list bin * Flow.finfo)) (old : state) : res (list (list (Qc * Qc)) * state) :=
  match maps with
  | [] => Ok ([], old)
  | (b, fi) :: maps =>
    do (a, st) <- Collect.get_interface_coordinates bM b fi cutoff radius nb lims old o;
    do (rest, st') <- with_state maps (Some st);
    Ok (a :: rest, st')
  end.
Lemma with_state_fst maps : forall old, Collect.collect_interfaces bM maps cutoff radius nb lims old o = rmap fst (with_state maps old).
Proof.
  induction maps as [|[b fi] maps IH]; intros old; [reflexivity|]. cbn [Collect.collect_interfaces with_state].
  destruct (Collect.get_interface_coordinates bM b fi cutoff radius nb lims old o) as [[a st]|]; [|reflexivity]. cbn [rbind]. rewrite IH.
  destruct (with_state maps (Some st)) as [[r st']|]; reflexivity.
Qed.
Lemma with_state_app maps1 maps2 : forall old, with_state (maps1 ++ maps2) old =
  (do (a, st) <- with_state maps1 old; do (b, st') <- with_state maps2 st; Ok (a ++ b, st')).
Proof.
  induction maps1 as [|[b fi] maps1 IH]; intros old; cbn [app with_state rbind].
  - destruct (with_state maps2 old) as [[b st']|]; reflexivity.
  - destruct (Collect.get_interface_coordinates bM b fi cutoff radius nb lims old o) as [[a st]|]; [|reflexivity]. cbn [rbind]. rewrite IH.
    destruct (with_state maps1 (Some st)) as [[r st']|]; [|reflexivity]. cbn [rbind]. destruct (with_state maps2 st') as [[r2 st2]|]; reflexivity.
Qed.
Lemma with_state_length maps : forall old a st, with_state maps old = Ok (a, st) -> length a = length maps.
Proof.
  induction maps as [|[b fi] maps IH]; intros old a st H; cbn [with_state] in H; [injection H as <- _; reflexivity|].
  destruct (Collect.get_interface_coordinates bM b fi cutoff radius nb lims old o) as [[a1 st1]|]; [|discriminate]. cbn [rbind] in H.
  destruct (with_state maps (Some st1)) as [[r st']|] eqn:E; [|discriminate]. cbn [rbind] in H. injection H as <- _. cbn. rewrite (IH _ _ _ E). reflexivity.
Qed.
(** Every array has at least four points. *)
Lemma with_state_points maps : forall old a st, with_state maps old = Ok (a, st) -> forall l, In l a -> (2 <= length l)%nat.
Proof.
  induction maps as [|[b fi] maps IH]; intros old a st H; cbn [with_state] in H; [injection H as <- _; intros l []|].
  destruct (Collect.get_interface_coordinates bM b fi cutoff radius nb lims old o) as [[a1 st1]|] eqn:E1; [|discriminate]. cbn [rbind] in H.
  destruct (with_state maps (Some st1)) as [[r st']|] eqn:E; [|discriminate]. cbn [rbind] in H. injection H as <- _.
  intros l [<- |Hl]; [|exact (IH _ _ _ E l Hl)]. apply array_of_map in E1. destruct E1 as (pairs & box & by_ & cx & _ & _ & L2 & L & _). rewrite L. lia.
Qed.

Lemma key_of_lookup d q c : lookup (files d) q = Some c -> In q (keys d).
Proof. intros H. apply exists_path_iff. unfold exists_path. rewrite H. reflexivity. Qed.
Definition reads (d : disk) (p : string * string) (m : list bin * Flow.finfo) : Prop := flow_file fuel (Average.content d (fst p)) = Ok m.
Lemma flow_file_none m : flow_file fuel None = Ok m -> False.
Proof. unfold flow_file, read_data_file. cbn [rbind guess_read_module]. discriminate. Qed.
Lemma reads_key d p m : reads d p m -> In (os_path (fst p)) (keys d).
Proof.
  unfold reads, Average.content. destruct (lookup (files d) (os_path (fst p))) as [c|] eqn:E; [intros _; exact (key_of_lookup _ _ _ E)|].
  intros H. exfalso. exact (flow_file_none _ H).
Qed.
Lemma collect_prefix rest : forall pre maps old d arrays st, wf d ->
  Forall2 (reads d) pre maps -> NoDup (map (fun p => os_path (snd p)) pre) ->
  ForallOrdPairs (fun a b => os_path (snd a) <> os_path (fst b)) (pre ++ rest) ->
  with_state maps old = Ok (arrays, st) ->
  exists d', collect_loop fuel hdr cutoff radius nb lims o old d (pre ++ rest) = collect_loop fuel hdr cutoff radius nb lims o st d' rest /\ wf d' /\
    (forall i p a, nth_error pre i = Some p -> nth_error arrays i = Some a -> lookup (files d') (os_path (snd p)) = Some (string_of (interface_text (hdr (snd p)) a))) /\
    (forall q, In q (keys d) -> ~ In q (map (fun p => os_path (snd p)) pre) -> lookup (files d') q = lookup (files d) q) /\
    Permutation (contents d') (contents d ++ map (fun pa => string_of (interface_text (hdr (snd (fst pa))) (snd pa))) (combine pre arrays)).
Proof.
  induction pre as [|[fi fo] pre IH]; intros maps old d arrays st Hw HR Hnd Hord HS.
  - inversion HR; subst. cbn [with_state] in HS. injection HS as <- <-. exists d. split; [reflexivity|]. split; [exact Hw|]. split; [intros [|i]; discriminate|].
    split; [auto|]. cbn [map combine]. rewrite app_nil_r. reflexivity.
  - inversion HR as [|? [b fi'] ? maps' Hm HR']; subst. cbn [with_state] in HS.
    destruct (Collect.get_interface_coordinates bM b fi' cutoff radius nb lims old o) as [[a st1]|] eqn:E1; [|discriminate]. cbn [rbind] in HS.
    destruct (with_state maps' (Some st1)) as [[arr st2]|] eqn:E2; [|discriminate]. cbn [rbind] in HS. injection HS as <- <-.
    cbn [app collect_loop]. unfold reads in Hm. cbn [fst] in Hm. rewrite Hm. cbn [rbind]. rewrite E1.
    destruct (do_call_spec d (os_path fo) [string_of (interface_text (hdr fo) a)] Hw) as (d1 & C1 & Hw1 & P1 & L1 & O1). rewrite C1.
    cbn [map snd] in Hnd. inversion Hnd as [|? ? Hfo Hnd']; subst. cbn [app] in Hord. inversion Hord as [|? ? Hlater Hord']; subst.
    assert (forall q, In q (keys d) -> q <> os_path fo -> lookup (files d1) q = lookup (files d) q) as O2. { intros q Hq Nq. apply O1; [exact Nq|apply exists_path_iff; exact Hq]. }
    assert (forall q, In q (keys d) -> q <> os_path fo -> In q (keys d1)) as K2.
    { intros q Hq Nq. destruct (lookup (files d1) q) as [c|] eqn:E; [exact (key_of_lookup _ _ _ E)|]. rewrite (O2 q Hq Nq) in E. apply lookup_none in E. contradiction. }
    destruct (IH maps' (Some st1) d1 arr st2 Hw1) as (d' & E & Hw' & R & O & PW); [|exact Hnd'|exact Hord'|exact E2|].
    { clear - HR' Hlater O2. rewrite Forall_forall in Hlater.
      assert (forall l, (forall p, In p l -> In p pre) -> forall ms, Forall2 (reads d) l ms -> Forall2 (reads d1) l ms) as G.
      { intros l Hl ms HF. induction HF as [|p m l ms Hp HF IH]; constructor.
        - pose proof (reads_key _ _ _ Hp) as K. unfold reads, Average.content in *. rewrite O2; [exact Hp|exact K|].
          intros C. apply (Hlater p); [apply in_app_iff; left; apply Hl; left; reflexivity|]. symmetry. exact C.
        - apply IH. intros q Hq. apply Hl. right. exact Hq. }
      apply (G pre); [auto|exact HR']. }
    exists d'. split; [exact E|]. split; [exact Hw'|].
    assert (In (os_path fo) (keys d1)) as Kfo by exact (key_of_lookup _ _ _ L1).
    split; [|split].
    + intros [|i] p a' Hp Ha; cbn [nth_error] in *; [|exact (R i p a' Hp Ha)]. injection Hp as <-. injection Ha as <-. cbn [snd].
      rewrite (O _ Kfo Hfo), L1. reflexivity.
    + intros q Hq Nq. cbn [map snd In] in Nq. rewrite O; [apply O2; [exact Hq|intros ->; apply Nq; left; reflexivity]|apply K2; [exact Hq|intros ->; apply Nq; left; reflexivity]|intros H; apply Nq; right; exact H].
    + cbn [combine map fst snd]. rewrite PW, P1, <- app_assoc. reflexivity.
Qed.
End Run.

(** ** The run over the files of a base *)
Lemma ordered_pairs (src dst : Z -> path) begin n : (forall j k, (begin <= j < k)%Z -> (k < begin + Z.of_nat n)%Z -> dst j <> src k) ->
  forall (f : Z -> string * string), (forall k, os_path (fst (f k)) = src k) -> (forall k, os_path (snd (f k)) = dst k) ->
  ForallOrdPairs (fun a b => os_path (snd a) <> os_path (fst b)) (map f (numbers begin n)).
Proof.
  intros Hov f Hf Hs.
  assert (forall m b, (begin <= b)%Z -> (b + Z.of_nat m <= begin + Z.of_nat n)%Z -> ForallOrdPairs (fun a b => os_path (snd a) <> os_path (fst b)) (map f (numbers b m))) as H.
  { induction m as [|m IH]; intros b Hb Hm; [constructor|]. cbn [numbers map]. constructor; [|apply IH; lia].
    apply Forall_forall. intros p Hp. apply in_map_iff in Hp. destruct Hp as (k & <- & Hk). apply in_numbers in Hk. rewrite Hf, Hs. apply Hov; lia. }
  apply H; lia.
Qed.
Lemma numbers_app b m n : numbers b (m + n) = numbers b m ++ numbers (b + Z.of_nat m) n.
Proof.
  revert b. induction m as [|m IH]; intros b; cbn [numbers Nat.add app]; [rewrite Z.add_0_r; reflexivity|]. rewrite IH. do 3 f_equal. lia.
Qed.
Lemma numbers_nth b n i : (i < n)%nat -> nth_error (numbers b n) i = Some (b + Z.of_nat i)%Z.
Proof.
  revert b i. induction n as [|n IH]; intros b [|i] H; cbn [numbers nth_error]; try lia; [f_equal; lia|]. rewrite IH by lia. f_equal. lia.
Qed.
Lemma Forall2_numbers {A} (f : Z -> string * string) (R : string * string -> A -> Prop) begin : forall n l,
  length l = n -> (forall i a, nth_error l i = Some a -> R (f (begin + Z.of_nat i)%Z) a) -> Forall2 R (map f (numbers begin n)) l.
Proof.
  intros n l. revert begin n. induction l as [|a l IH]; intros begin n <- H; cbn [length numbers map]; constructor.
  - replace begin with (begin + Z.of_nat 0)%Z at 1 by lia. apply H. reflexivity.
  - apply IH; [reflexivity|]. intros i b Hi. replace (begin + 1 + Z.of_nat i)%Z with (begin + Z.of_nat (S i))%Z by lia. apply H. exact Hi.
Qed.

Lemma collect_frames ffuel fuel hdr cutoff radius nb lims o d base output fo n m maps arrays st : wf d ->
  let begin := match o_begin fo with Some b => b | None => 1%Z end in
  let e := match o_end fo with Some e => e | None => Inf end in
  let ext := match o_ext fo with Some x => x | None => ".dat"%string end in
  let outext := match o_outext fo with Some x => x | None => ".xvg"%string end in
  let src k := os_path (fname base k ext) in let dst k := os_path (fname output k outext) in
  no_slash outext -> (n < ffuel)%nat ->
  run_length (fun z => match e with Upto m => (z <= m)%Z | Inf => True end /\ exists_path d (src z) = true) begin n ->
  (forall j k, (begin <= j < k)%Z -> (k < begin + Z.of_nat n)%Z -> dst j <> src k) ->
  (m <= n)%nat -> length maps = m ->
  (forall i mp, nth_error maps i = Some mp -> flow_file fuel (Average.content d (fname base (begin + Z.of_nat i) ext)) = Ok mp) ->
  with_state cutoff radius nb lims o maps None = Ok (arrays, st) ->
  exists d', collect_files ffuel fuel hdr cutoff radius nb lims o d base output fo =
      collect_loop fuel hdr cutoff radius nb lims o st d' (map (fun k => (fname base k ext, fname output k outext)) (numbers (begin + Z.of_nat m) (n - m))) /\ wf d' /\
    (forall i a, nth_error arrays i = Some a -> lookup (files d') (dst (begin + Z.of_nat i)%Z) = Some (string_of (interface_text (hdr (fname output (begin + Z.of_nat i) outext)) a))) /\
    (forall q, exists_path d q = true -> (forall k, (begin <= k < begin + Z.of_nat m)%Z -> q <> dst k) -> lookup (files d') q = lookup (files d) q) /\
    exists written, length written = m /\ Permutation (contents d') (contents d ++ written).
Proof.
  intros Hw begin e ext outext src dst Hs Hf Hr Hov Hm HL HR HS. unfold collect_files, Utils.pop_fileopts. cbv zeta.
  cbn [Utils.f_begin Utils.f_end Utils.f_ext Utils.f_outext Utils.o_begin Utils.o_end Utils.o_ext Utils.o_outext Utils.dflt].
  change (Utils.dflt 1%Z (o_begin fo)) with begin. change (Utils.dflt Inf (o_end fo)) with e. change (Utils.dflt ".dat"%string (o_ext fo)) with ext. change (Utils.dflt ".xvg"%string (o_outext fo)) with outext.
  rewrite (singles_run _ base output begin e ext outext n Hr ffuel Hf).
  set (f := fun k => (fname base k ext, fname output k outext)).
  assert (numbers begin n = numbers begin m ++ numbers (begin + Z.of_nat m) (n - m)) as EN by (rewrite <- numbers_app; f_equal; lia).
  rewrite EN, map_app.
  assert (map (fun p => os_path (snd p)) (map f (numbers begin m)) = map dst (numbers begin m)) as Es by (rewrite map_map; reflexivity).
  destruct (collect_prefix fuel hdr cutoff radius nb lims o (map f (numbers (begin + Z.of_nat m) (n - m))) (map f (numbers begin m)) maps None d arrays st Hw) as (d' & E & Hw' & R & O & PW).
  - apply Forall2_numbers; [exact HL|]. intros i a Hi. unfold reads, f. cbn [fst]. apply HR. exact Hi.
  - rewrite Es. apply FinFun.Injective_map_NoDup; [|apply numbers_nodup]. intros j k H. exact (os_path_fname_inj output outext j k Hs H).
  - rewrite <- map_app, <- EN. apply (ordered_pairs src dst); [exact Hov|reflexivity|reflexivity].
  - exact HS.
  - exists d'. split; [exact E|]. split; [exact Hw'|]. pose proof (with_state_length _ _ _ _ _ _ _ _ _ HS) as LA. split; [|split].
    + intros i a Ha. assert (i < m)%nat as Hi by (rewrite <- HL, <- LA; apply nth_error_Some; rewrite Ha; discriminate).
      apply (R i (f (begin + Z.of_nat i)%Z) a); [|exact Ha]. rewrite nth_error_map, numbers_nth by exact Hi. reflexivity.
    + intros q Hq Nq. apply O; [apply exists_path_iff; exact Hq|]. rewrite Es. intros H. apply in_map_iff in H. destruct H as (k & E' & Hk). apply in_numbers in Hk. apply (Nq k Hk). auto.
    + eexists. split; [|exact PW]. rewrite map_length, combine_length, map_length, numbers_length, LA, HL. lia.
Qed.
