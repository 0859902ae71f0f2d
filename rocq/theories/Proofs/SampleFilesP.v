(** Proofs about runs over files which collect samples. *)
From Coq Require Import String Ascii Permutation Reals.
From Verif.Base Require Import QcX QcR Res Np Bytes.
From Verif.Model Require Utils Flow Average.
From Verif.Model Require Import Bins Text Gmx Simple Formats Table RealText InterfaceFiles SampleFiles.
From Verif.Spec Require Import FilesSpec DiskSpec TableSpec.
From Verif.Proofs Require Import UtilsFiles UtilsDisk UtilsTop TextP SimpleP FormatsP TableP InterfaceFilesP SpreadingFilesP.
Import Utils(disk, path, files, lookup, fopts, exists_path, fname, bound, Upto, Inf, o_begin, o_end, o_ext, o_outext, exec_ops, exec_op, Append, set_file, do_call, write_ops, prepare_ops, backup_path).
Local Open Scope list_scope.
Local Notation length := List.length.

Section Loop.
Context {A B : Type} (step : nat -> option bytes -> outcome A B).
Definition rows_in (outs : list (option (A * bytes))) : list A := flat_map (fun x => match x with Some (a, _) => [a] | None => [] end) outs.
Definition text_in (outs : list (option (A * bytes))) : bytes := flat_map (fun x => match x with Some (_, t) => t | None => [] end) outs.
Definition as_outcome (x : option (A * bytes)) : outcome A B := match x with Some (a, t) => Row a t | None => Skip end.
Definition loop_ends (d : disk) (i : nat) (tail : list string) (stop : option B) : Prop :=
  match tail, stop with
  | [], None => True
  | n :: _, Some b => step i (Average.content d n) = Stop b
  | _, _ => False
  end.
Lemma sampling_unsaved d tail stop : forall names outs i, length names = length outs ->
  (forall k n x, nth_error names k = Some n -> nth_error outs k = Some x -> step (i + k) (Average.content d n) = as_outcome x) ->
  loop_ends d (i + length outs) tail stop ->
  sampling_loop step None i d (names ++ tail) = (d, (rows_in outs, stop)).
Proof.
  induction names as [|n names IH]; intros outs i HL HF HE; destruct outs as [|x outs]; try discriminate HL.
  - cbn [app rows_in flat_map]. cbn [length] in HE. rewrite Nat.add_0_r in HE. destruct tail as [|n tail], stop as [b|]; cbn [loop_ends] in HE; try contradiction; [reflexivity|].
    cbn [sampling_loop]. rewrite HE. reflexivity.
  - cbn [app sampling_loop]. pose proof (HF 0%nat n x eq_refl eq_refl) as H0. rewrite Nat.add_0_r in H0. rewrite H0.
    assert (sampling_loop step None (S i) d (names ++ tail) = (d, (rows_in outs, stop))) as E.
    { apply IH; [injection HL as HL; exact HL| |]. { intros k m y Hm Hy. replace (S i + k)%nat with (i + S k)%nat by lia. exact (HF (S k) m y Hm Hy). }
      cbn [length] in HE. replace (S i + length outs)%nat with (i + S (length outs))%nat by lia. exact HE. }
    destruct x as [[a t]|]; cbn [as_outcome]; rewrite E; reflexivity.
Qed.
Lemma sampling_saved d out tail stop : forall names outs i t0, length names = length outs ->
  (forall n, In n (names ++ tail) -> os_path n <> os_path out) ->
  (forall k n x, nth_error names k = Some n -> nth_error outs k = Some x -> step (i + k) (Average.content d n) = as_outcome x) ->
  loop_ends d (i + length outs) tail stop ->
  sampling_loop step (Some out) i (set_file d (os_path out) t0) (names ++ tail) = (set_file d (os_path out) (t0 ++ string_of (text_in outs))%string, (rows_in outs, stop)).
Proof.
  induction names as [|n names IH]; intros outs i t0 HL HN HF HE; destruct outs as [|x outs]; try discriminate HL.
  - cbn [app rows_in text_in flat_map]. cbn [length] in HE. rewrite Nat.add_0_r in HE. change (string_of []) with EmptyString. rewrite app_string_nil_r.
    destruct tail as [|n tail], stop as [b|]; cbn [loop_ends] in HE; try contradiction; [reflexivity|].
    cbn [sampling_loop]. rewrite content_set by (apply HN; left; reflexivity). rewrite HE. reflexivity.
  - cbn [app sampling_loop]. rewrite content_set by (apply HN; left; reflexivity). pose proof (HF 0%nat n x eq_refl eq_refl) as H0. rewrite Nat.add_0_r in H0. rewrite H0.
    assert (forall t, sampling_loop step (Some out) (S i) (set_file d (os_path out) t) (names ++ tail) = (set_file d (os_path out) (t ++ string_of (text_in outs))%string, (rows_in outs, stop))) as E.
    { intros t. apply IH; [injection HL as HL; exact HL| | |]. { intros m Hm. apply HN. right. exact Hm. } { intros k m y Hm Hy. replace (S i + k)%nat with (i + S k)%nat by lia. exact (HF (S k) m y Hm Hy). }
      cbn [length] in HE. replace (S i + length outs)%nat with (i + S (length outs))%nat by lia. exact HE. }
    destruct x as [[a t]|]; cbn [as_outcome].
    + change [Append (os_path out) (string_of t)] with (map (Append (os_path out)) [string_of t]). rewrite exec_appends. cbn [String.concat]. rewrite E. cbn [rows_in text_in flat_map].
      rewrite string_of_app, app_string_assoc. reflexivity.
    + rewrite E. reflexivity.
Qed.

(** The loop after the header was written: the output has the header and the lines. *)
Lemma sampling_written d out chunks d1 names tail outs stop : wf d -> do_call d (os_path out, chunks) = Ok d1 ->
  (forall n, In n (names ++ tail) -> os_path n <> os_path out /\ exists_path d (os_path n) = true) ->
  length names = length outs ->
  (forall k n x, nth_error names k = Some n -> nth_error outs k = Some x -> step k (Average.content d n) = as_outcome x) ->
  loop_ends d (length outs) tail stop ->
  exists d2, sampling_loop step (Some out) 0 d1 (names ++ tail) = (d2, (rows_in outs, stop)) /\ wf d2 /\
    lookup (files d2) (os_path out) = Some (String.concat "" chunks ++ string_of (text_in outs))%string /\
    (forall q, exists_path d q = true -> q <> os_path out -> lookup (files d2) q = lookup (files d) q) /\
    Permutation (contents d2) (contents d ++ [(String.concat "" chunks ++ string_of (text_in outs))%string]).
Proof.
  intros Hw E1 HN HL HF HE. destruct (do_call_spec d (os_path out) chunks Hw) as (d1' & E1' & Hw1 & P1 & L1 & O1). rewrite E1 in E1'. injection E1' as <-.
  destruct (do_call_base _ _ _ _ Hw E1) as (d0 & -> & W0 & P0 & N0).
  assert (forall n, In n (names ++ tail) -> Average.content d0 n = Average.content d n) as HC.
  { intros n Hn. destruct (HN n Hn) as [A0 B0]. unfold Average.content. rewrite <- (O1 _ A0 B0), lookup_set_neq by exact A0. reflexivity. }
  rewrite (sampling_saved d0 out tail stop names outs 0 _ HL).
  - eexists. split; [reflexivity|]. split; [apply wf_set; exact W0|]. split; [apply lookup_set_eq|]. split.
    + intros q Hq Nq. rewrite lookup_set_neq by exact Nq. rewrite <- (O1 q Nq Hq), lookup_set_neq by exact Nq. reflexivity.
    + unfold contents at 1, set_file. cbn [files]. rewrite remove_none; [|unfold exists_path in N0; destruct (lookup (files d0) (os_path out)); [discriminate|reflexivity]].
      cbn [map snd]. fold (contents d0). rewrite P0. apply Permutation_cons_append.
  - intros n Hn. exact (proj1 (HN n Hn)).
  - intros k n x Hn Hx. rewrite HC; [exact (HF k n x Hn Hx)|]. apply in_or_app. left. exact (nth_error_In _ _ Hn).
  - cbn [plus]. unfold loop_ends in *. destruct tail as [|n tail], stop as [b|]; try exact HE. rewrite HC; [exact HE|]. apply in_or_app. right. left. reflexivity.
Qed.
End Loop.

(** The names of a run of [n] files, split before number [m]. *)
Lemma names_split base ext begin n m : (m <= n)%nat ->
  map (fun k => fname base k ext) (numbers begin n) = map (fun k => fname base k ext) (numbers begin m) ++ map (fun k => fname base k ext) (numbers (begin + Z.of_nat m) (n - m)).
Proof. intros H. rewrite <- map_app, <- numbers_app. do 2 f_equal. lia. Qed.
Lemma names_in base ext begin n s : In s (map (fun k => fname base k ext) (numbers begin n)) -> exists i, (i < n)%nat /\ s = fname base (begin + Z.of_nat i) ext.
Proof.
  intros H. apply in_map_iff in H as (k & <- & H). apply In_nth_error in H as (i & H). pose proof (nth_error_Some (numbers begin n) i) as K. rewrite numbers_length in K.
  assert (i < n)%nat as Hi by (apply K; congruence). exists i. split; [exact Hi|]. f_equal. 
  pose proof (numbers_nth begin n i Hi) as Q. rewrite Q in H. injection H as <-. reflexivity.
Qed.
