(** Proofs about spreading files: runs on the disk. *)
From Coq Require Import String Ascii Permutation.
From Verif.Base Require Import QcX Res Np Bytes.
From Verif.Model Require Utils Flow Average.
From Verif.Model Require Import Bins Text Gmx Simple Formats Table InterfaceFiles SpreadingFiles Spreading.
From Verif.Spec Require Import FilesSpec DiskSpec TableSpec.
From Verif.Proofs Require Import UtilsFiles UtilsDisk UtilsTop TextP SimpleP FormatsP TableP InterfaceFilesP.
Import Utils(disk, path, files, lookup, fopts, exists_path, fname, bound, Upto, Inf, o_begin, o_end, o_ext, o_outext, exec_ops, exec_op, Append, set_file, do_call, write_ops, prepare_ops, backup_path).
Local Open Scope list_scope.
Local Notation length := List.length.

Lemma app_string_nil_r s : (s ++ "")%string = s.
Proof. induction s as [|c s IH]; cbn; [reflexivity|]. rewrite IH. reflexivity. Qed.
Lemma string_of_app a b : string_of (a ++ b) = (string_of a ++ string_of b)%string.
Proof. unfold string_of. induction a as [|x a IH]; cbn; [reflexivity|]. rewrite IH. reflexivity. Qed.
Lemma concat_string_of l : String.concat "" (map string_of l) = string_of (concat l).
Proof.
  induction l as [|a l IH]; [reflexivity|]. cbn [map concat]. rewrite string_of_app, <- IH. destruct l; cbn; [|reflexivity].
  rewrite app_string_nil_r. reflexivity.
Qed.

(** The text of a line of the output. *)
Definition line_text (hdr : list bytes) (l : line) : bytes :=
  match l with
  | LHeader => flat_map (fun l => l ++ nl) hdr
  | LImpact t p => impact_text t p
  | LRow t r a b => spread_line (mkRow t r a b)
  end.
Lemma frame_of_path fuel o n f fr : frame_of fuel o n f = Ok fr -> f_path fr = n.
Proof.
  unfold frame_of. destruct (flow_file fuel f) as [[b fi]|]; cbn [rbind]; [|discriminate]. destruct (get_spreading_edges _ _ _ _ _ _ _ _) as [[lr|]|]; cbn [rbind]; try discriminate.
  - destruct (Flow.size fi); cbn [rbind of_option]; [|discriminate]. intros H. injection H as <-. reflexivity.
  - intros H. injection H as <-. reflexivity.
Qed.

Section Loop.
Variables (fuel : nat) (o : sopts) (dt : Qc) (hdr : list bytes).
(** How the list of names ends: no more files, or a file which cannot be used. *)
Definition ends (d : disk) (out : path) (tail : list string) (e : option exn) : Prop :=
  match tail, e with
  | [], None => True
  | n :: _, Some err => frame_of fuel o n (Average.content d n) = Err err /\ os_path n <> out
  | _, _ => False
  end.
Definition result (e : option exn) (rows : list row) : res (list row) := match e with None => Ok rows | Some err => Err err end.
Lemma content_set d p t n : os_path n <> p -> Average.content (set_file d p t) n = Average.content d n.
Proof. intros H. unfold Average.content. rewrite lookup_set_neq by exact H. reflexivity. Qed.
Lemma loop_saved out d tail e : ends d (os_path out) tail e -> forall names frames i time p impact t,
  Forall2 (fun n f => frame_of fuel o n (Average.content d n) = Ok f /\ os_path n <> os_path out) names frames ->
  spreading_loop fuel o dt (Some out) i time p impact (set_file d (os_path out) t) (names ++ tail) =
  let '(rows, lines, impact') := collect_loop frames i dt time p true impact in
  (set_file d (os_path out) (t ++ string_of (flat_map (line_text hdr) lines))%string, impact', result e rows).
Proof.
  intros HE. induction names as [|n names IH]; intros frames i time p impact t HF; inversion HF as [|? f ? frames' [Hf Hn] HF']; subst; cbn [app collect_loop].
  - cbn [flat_map]. rewrite app_string_nil_r. destruct tail as [|n tail], e as [err|]; cbn [ends] in HE; try contradiction; [reflexivity|].
    destruct HE as [HE Hn]. cbn [spreading_loop]. rewrite content_set by exact Hn. rewrite HE. reflexivity.
  - cbn [spreading_loop]. rewrite content_set by exact Hn. rewrite Hf. pose proof (frame_of_path _ _ _ _ _ Hf) as HP.
    destruct (f_edges f) as [[l r]|]; [|exact (IH frames' (S i) time p impact t HF')].
    set (p' := check_and_update p (f_box f) l r). destruct (add_multipliers p' (f_box f) l r) as [la ra]. set (rw := mkRow _ _ _ _).
    rewrite <- map_map. rewrite exec_appends, concat_string_of. rewrite IH with (1 := HF'). replace (match Some out with Some _ => true | None => false end) with true by reflexivity.
    destruct (collect_loop frames' (S i) dt (time + dt) p' true (impact || true)) as [[rows lines] im]. rewrite app_string_assoc, <- string_of_app. rewrite HP. f_equal.
    + f_equal. f_equal. f_equal. f_equal. rewrite flat_map_app. f_equal. destruct impact; cbn [app concat flat_map line_text]; rewrite ?app_nil_r; [reflexivity|]. reflexivity.
    + destruct e; reflexivity.
Qed.
Lemma loop_unsaved d tail e : match tail, e with [], None => True | n :: _, Some err => frame_of fuel o n (Average.content d n) = Err err | _, _ => False end ->
  forall names frames i time p impact,
  Forall2 (fun n f => frame_of fuel o n (Average.content d n) = Ok f) names frames ->
  spreading_loop fuel o dt None i time p impact d (names ++ tail) =
  let '(rows, lines, impact') := collect_loop frames i dt time p false impact in (d, impact', result e rows).
Proof.
  intros HE. induction names as [|n names IH]; intros frames i time p impact HF; inversion HF as [|? f ? frames' Hf HF']; subst; cbn [app collect_loop].
  - destruct tail as [|n tail], e as [err|]; try contradiction; [reflexivity|]. cbn [spreading_loop]. rewrite HE. reflexivity.
  - cbn [spreading_loop]. rewrite Hf. destruct (f_edges f) as [[l r]|]; [|exact (IH frames' (S i) time p impact HF')].
    set (p' := check_and_update p (f_box f) l r). destruct (add_multipliers p' (f_box f) l r) as [la ra]. rewrite IH with (1 := HF').
    destruct (collect_loop frames' (S i) dt (time + dt) p' false (impact || false)) as [[rows lines] im]. destruct e; reflexivity.
Qed.
End Loop.

(** The disk after a call of a decorated function: the former content is at a backup path. *)
Lemma do_call_set d p chunks d' : do_call d (p, chunks) = Ok d' ->
  exists d0, d' = set_file d0 p (String.concat "" chunks) /\ exists ops, prepare_ops d p = Ok ops /\ d0 = exec_ops d ops.
Proof.
  unfold do_call, write_ops. cbn [fst snd]. destruct (prepare_ops d p) as [ops|]; cbn [rbind]; [|discriminate]. intros H. injection H as <-.
  exists (exec_ops d ops). split; [|exists ops; split; reflexivity]. unfold exec_ops. rewrite fold_left_app. cbn [fold_left exec_op]. fold (exec_ops d ops).
  change (fold_left exec_op ?l ?x) with (exec_ops x l). rewrite exec_appends. reflexivity.
Qed.
Lemma do_call_base d p chunks d' : wf d -> do_call d (p, chunks) = Ok d' ->
  exists d0, d' = set_file d0 p (String.concat "" chunks) /\ wf d0 /\ Permutation (contents d0) (contents d) /\ exists_path d0 p = false.
Proof.
  intros Hw H. destruct (do_call_set _ _ _ _ H) as (d0 & -> & ops & HP & ->). destruct (prepare_effect d p Hw) as (ops' & HP' & K).
  rewrite HP in HP'. injection HP' as <-. specialize (K ops [] (eq_sym (app_nil_r _))). cbv zeta in K. destruct K as (A & B & _ & C). exists (exec_ops d ops). auto.
Qed.
(** No path but the written one and its backups comes into existence. *)
Lemma do_call_new d p chunks d' q : do_call d (p, chunks) = Ok d' -> exists_path d' q = true ->
  q = p \/ (exists j, q = backup_path p j) \/ exists_path d q = true.
Proof.
  intros H. destruct (do_call_set _ _ _ _ H) as (d0 & -> & ops & HP & ->). intros HQ.
  destruct (path_eqb_spec q p) as [->|N]; [left; reflexivity|right]. unfold exists_path in HQ. rewrite lookup_set_neq in HQ by exact N.
  unfold prepare_ops in HP. destruct (backup_name_spec d p) as [[E B]|(E & j & Hj & B & _)]; rewrite B in HP; cbn [rbind] in HP; injection HP as <-.
  - rewrite path_eqb_refl in HQ. rewrite app_nil_r in HQ. right. unfold exists_path. destruct (existsb _ _); exact HQ.
  - assert (Utils.path_eqb (backup_path p j) p = false) as EB by (destruct (path_eqb_spec (backup_path p j) p) as [C|]; [exfalso; exact (backup_neq _ _ C)|reflexivity]).
    rewrite EB in HQ. destruct (path_eqb_spec q (backup_path p j)) as [->|NB]; [left; exists j; reflexivity|right].
    unfold exists_path in *. destruct (lookup (files d) p) as [c|] eqn:EL; [|discriminate].
    assert (lookup (files (exec_op d (Utils.Rename p (backup_path p j)))) q = lookup (files d) q) as K.
    { cbn [exec_op]. rewrite EL. cbn [files lookup]. destruct (path_eqb_spec q (backup_path p j)); [contradiction|]. rewrite !lookup_remove_neq by assumption. reflexivity. }
    destruct (existsb _ _); cbn [app exec_ops fold_left exec_op] in HQ; [|cbn [files] in HQ].
    + cbn [exec_op] in K. rewrite K in HQ. exact HQ.
    + cbn [exec_op files] in K. rewrite EL in K, HQ. cbn [files] in K, HQ. rewrite K in HQ. exact HQ.
Qed.

(** The lines about the impact which a run writes. *)
Definition impact_header (impact : bool) (dt : Qc) (frames : list Spreading.frame) : list bytes :=
  if impact then [] else match SpreadingP.first_detected frames 0 with Some (k, pth) => impact_lines (NQ k * dt) pth | None => [] end.
Definition all_rows (frames : list Spreading.frame) (dt t0 : Qc) : list row := SpreadingP.the_rows (collect_loop frames 0 dt t0 init_periodic_info true false).
Lemma rows_any frames dt t0 save impact : forall i p, SpreadingP.the_rows (collect_loop frames i dt t0 p save impact) = SpreadingP.the_rows (collect_loop frames i dt t0 p true false).
Proof.
  intros i p. revert i dt t0 p save impact. induction frames as [|f frames IH]; intros i dt t0 p save impact; [reflexivity|]. cbn [collect_loop].
  destruct (f_edges f) as [[l r]|]; [|apply IH]. destruct (add_multipliers _ _ _ _) as [la ra].
  pose proof (IH (S i) dt (t0 + dt) (check_and_update p (f_box f) l r) save (impact || save)%bool) as A.
  pose proof (IH (S i) dt (t0 + dt) (check_and_update p (f_box f) l r) true (false || true)%bool) as B.
  destruct (collect_loop frames (S i) dt (t0 + dt) _ save (impact || save)) as [[ra1 la1] i1]. destruct (collect_loop frames (S i) dt (t0 + dt) _ true (false || true)) as [[ra2 la2] i2].
  unfold SpreadingP.the_rows in *. cbn [fst] in *. rewrite A, B. reflexivity.
Qed.
Lemma lines_text hdr frames dt t0 impact :
  flat_map (fun l => l ++ nl) hdr ++ flat_map (line_text hdr) (SpreadingP.the_lines (collect_loop frames 0 dt t0 init_periodic_info true impact)) =
  savetxt (hdr ++ impact_header impact dt frames) (map row_numbers (all_rows frames dt t0)).
Proof.
  rewrite SpreadingP.loop_lines, rows_any. fold (all_rows frames dt t0). unfold savetxt. rewrite !flat_map_app, <- !app_assoc. f_equal. f_equal.
  - unfold impact_header. destruct impact; [reflexivity|]. destruct (SpreadingP.first_detected frames 0) as [[k pth]|]; [|reflexivity].
    cbn [flat_map]. cbn [line_text]. rewrite app_nil_r. reflexivity.
  - induction (all_rows frames dt t0) as [|rw rows IH]; [reflexivity|]. cbn [map flat_map]. rewrite IH. f_equal. 
Qed.

Lemma run_saved ffuel fuel hdr o dt t0 d impact base out fo n m frames (e : option exn) : wf d ->
  let begin := match o_begin fo with Some b => b | None => 1%Z end in
  let en := match o_end fo with Some e => e | None => Inf end in
  let ext := match o_ext fo with Some x => x | None => ".dat"%string end in
  let name i := fname base (begin + Z.of_nat i) ext in
  (n < ffuel)%nat ->
  run_length (fun z => match en with Upto m => (z <= m)%Z | Inf => True end /\ exists_path d (os_path (fname base z ext)) = true) begin n ->
  (forall i, (i <= n)%nat -> os_path (name i) <> os_path out) -> (forall j, os_path (name n) <> backup_path (os_path out) j) ->
  (m <= n)%nat -> length frames = m ->
  (forall i f, nth_error frames i = Some f -> frame_of fuel o (name i) (Average.content d (name i)) = Ok f) ->
  match e with None => m = n | Some err => (m < n)%nat /\ frame_of fuel o (name m) (Average.content d (name m)) = Err err end ->
  exists d', spreading_run ffuel fuel hdr o dt t0 d impact base (Some out) fo =
      (d', (impact || existsb (fun f => match f_edges f with Some _ => true | None => false end) frames)%bool, rmap (map (fun r => (f32 (r_t r), f32 (r_r r)))) (result e (all_rows frames dt t0))) /\
    wf d' /\ lookup (files d') (os_path out) = Some (string_of (savetxt (hdr ++ impact_header impact dt frames) (map row_numbers (all_rows frames dt t0)))) /\
    (forall q, exists_path d q = true -> q <> os_path out -> lookup (files d') q = lookup (files d) q) /\
    Permutation (contents d') (contents d ++ [string_of (savetxt (hdr ++ impact_header impact dt frames) (map row_numbers (all_rows frames dt t0)))]).
Proof.
  intros Hw begin en ext name Hf Hr Hn Hb Hm HL HF HE. unfold spreading_run.
  destruct (do_call_spec d (os_path out) [string_of (flat_map (fun l => l ++ nl) hdr)] Hw) as (d1 & E1 & Hw1 & P1 & L1 & O1). rewrite E1. cbn [String.concat] in P1, L1.
  unfold Utils.pop_fileopts. cbn [Utils.f_begin Utils.f_end Utils.f_ext].
  change (Utils.dflt 1%Z (o_begin fo)) with begin. change (Utils.dflt Inf (o_end fo)) with en. change (Utils.dflt ".dat"%string (o_ext fo)) with ext.
  assert (forall i, (i < n)%nat -> exists_path d (os_path (name i)) = true) as HX.
  { intros i Hi. destruct Hr as [Hr _]. exact (proj2 (Hr (Z.of_nat i) ltac:(lia))). }
  assert (run_length (fun z => match en with Upto m => (z <= m)%Z | Inf => True end /\ exists_path d1 (os_path (fname base z ext)) = true) begin n) as Hr1.
  { destruct Hr as [R1 R2]. split.
    - intros k Hk. destruct (R1 k Hk) as [A B]. split; [exact A|]. unfold exists_path in *. replace k with (Z.of_nat (Z.to_nat k)) by lia. fold (name (Z.to_nat k)).
      rewrite O1; [apply HX; lia|apply Hn; lia|apply HX; lia].
    - intros [A B]. apply R2. split; [exact A|]. fold (name n) in B |- *. destruct (do_call_new _ _ _ _ _ E1 B) as [C|[[j C]|C]]; [exfalso; exact (Hn n (Nat.le_refl _) C)|exfalso; exact (Hb j C)|exact C]. }
  unfold Utils.find_datamap_singles. rewrite (UtilsFiles.yield_singles_run _ _ _ _ n); [|exact Hr1|exact Hf]. cbn [rbind].
  destruct (do_call_set _ _ _ _ E1) as (d0 & Ed & _). cbn [String.concat] in Ed.
  assert (forall i, (i < n)%nat -> Average.content d0 (name i) = Average.content d (name i)) as HC.
  { intros i Hi. unfold Average.content. rewrite <- (O1 (os_path (name i))); [|apply Hn; lia|apply HX; exact Hi]. rewrite Ed, lookup_set_neq by (apply Hn; lia). reflexivity. }
  set (names := map (fun k => fname base k ext) (numbers begin n)).
  assert (names = map (fun k => fname base k ext) (numbers begin m) ++ map (fun k => fname base k ext) (numbers (begin + Z.of_nat m) (n - m))) as EN.
  { unfold names. rewrite <- map_app, <- numbers_app. do 2 f_equal. lia. }
  assert (Forall2 (fun nm f => frame_of fuel o nm (Average.content d0 nm) = Ok f /\ os_path nm <> os_path out) (map (fun k => fname base k ext) (numbers begin m)) frames) as HF2.
  { assert (forall l b i0, b = (begin + Z.of_nat i0)%Z -> (i0 + length l <= n)%nat -> (forall i f, nth_error l i = Some f -> frame_of fuel o (name (i0 + i)%nat) (Average.content d (name (i0 + i)%nat)) = Ok f) ->
       Forall2 (fun nm f => frame_of fuel o nm (Average.content d0 nm) = Ok f /\ os_path nm <> os_path out) (map (fun k => fname base k ext) (numbers b (length l))) l) as G.
    { induction l as [|f l IH]; intros b i0 -> Hi Hl; cbn [length numbers map]; constructor.
      - fold (name i0). cbn [length] in Hi. split; [|apply Hn; lia]. rewrite HC by lia. specialize (Hl 0%nat f eq_refl). rewrite Nat.add_0_r in Hl. exact Hl.
      - apply (IH _ (S i0)); [lia|cbn [length] in Hi; lia|]. intros i g Hg. specialize (Hl (S i) g Hg). replace (S i0 + i)%nat with (i0 + S i)%nat by lia. exact Hl. }
    rewrite <- HL. apply (G frames begin 0%nat); [lia|lia|]. intros i f Hi. exact (HF i f Hi). }
  assert (ends fuel o d0 (os_path out) (map (fun k => fname base k ext) (numbers (begin + Z.of_nat m) (n - m))) e) as HEnd.
  { destruct e as [err|].
    - destruct HE as [Hlt HE]. destruct (n - m)%nat as [|r] eqn:Er; [lia|]. cbn [numbers map ends]. fold (name m). split; [|apply Hn; lia]. rewrite HC by exact Hlt. exact HE.
    - subst m. rewrite HE. rewrite Nat.sub_diag. exact I. }
  rewrite EN, Ed. rewrite (loop_saved fuel o dt hdr out d0 _ e HEnd _ frames 0%nat t0 init_periodic_info impact _ HF2).
  pose proof (lines_text hdr frames dt t0 impact) as LT. pose proof (rows_any frames dt t0 true impact 0 init_periodic_info) as RA. fold (all_rows frames dt t0) in RA.
  pose proof (SpreadingP.loop_flag frames 0 dt t0 init_periodic_info true impact) as FL.
  destruct (collect_loop frames 0 dt t0 init_periodic_info true impact) as [[rows lines] im]. unfold SpreadingP.the_lines in LT. unfold SpreadingP.the_rows in RA. cbn [fst snd] in LT, RA, FL.
  subst rows im. rewrite <- string_of_app, LT. set (text := string_of (savetxt _ _)). exists (set_file d0 (os_path out) text).
  destruct (do_call_base _ _ _ _ Hw E1) as (d0' & Ed' & W0 & P0 & N0).
  assert (forall d0 t d0' t', set_file d0 (os_path out) t = set_file d0' (os_path out) t' -> forall s, set_file d0 (os_path out) s = set_file d0' (os_path out) s) as SET.
  { intros a t a' t' H s. unfold set_file in *. injection H as _ H1 H2. rewrite H1, H2. reflexivity. }
  rewrite Ed in Ed'. rewrite (SET _ _ _ _ Ed' text). split; [|split; [|split; [|split]]].
  - f_equal. 
  - apply wf_set. exact W0.
  - apply lookup_set_eq.
  - intros q Hq Nq. rewrite lookup_set_neq by exact Nq. rewrite <- (O1 q Nq Hq). rewrite Ed, (SET _ _ _ _ Ed'), lookup_set_neq by exact Nq. reflexivity.
  - unfold contents at 1, set_file. cbn [files]. rewrite remove_none; [|unfold exists_path in N0; destruct (lookup (files d0') (os_path out)); [discriminate|reflexivity]].
    cbn [map snd]. fold (contents d0'). rewrite P0. apply Permutation_cons_append.
Qed.
