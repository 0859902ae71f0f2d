(** Property C82: the table of contact angles. *)
From Coq Require Import String Ascii Permutation Reals.
From Verif.Base Require Import QcX QcR Res Np Bytes.
From Coq Require Import Lra.
From Verif.Model Require Utils Average.
From Verif.Model Require Import Text Gmx Simple Formats Table RealText InterfaceFiles InterfaceAngle SampleFiles.
From Verif.Spec Require Import FilesSpec DiskSpec TableSpec RealTextSpec.
From Verif.Proofs Require Import UtilsFiles UtilsDisk UtilsTop TextP SimpleP FormatsP TableP RealTextP InterfaceFilesP SpreadingFilesP SampleFilesP.
From Verif.Props Require InterfaceFilesProps InterfaceRunProps InterfaceAngleProps.
Import InterfaceFilesProps(one_line) InterfaceRunProps(has_line, one_line_int).
Import Utils(disk, path, files, lookup, fopts, exists_path, fname, bound, Upto, Inf, o_begin, o_end, o_ext, o_outext).
Local Open Scope list_scope.
Local Notation length := List.length.

(** ** Tables of words *)
Definition table_text (header : list bytes) (rows : list (list bytes)) : bytes := flat_map (fun l => l ++ nl) header ++ flat_map (fun r => join sp r ++ nl) rows.
Definition good_word (w : bytes) : Prop := fplain w /\ Forall plain w /\ w <> [].
Lemma row_words r : Forall good_word r -> fplain (join sp r) /\ split_line (join sp r) = r.
Proof.
  intros H. assert (fplain (join sp r)) as P by (apply fplain_join; revert H; apply Forall_impl; intros w Hw; apply Hw). split; [exact P|].
  unfold split_line. rewrite split_hash_plain by exact P. cbn [fst]. apply words_join. revert H. apply Forall_impl. intros w (_ & H1 & H2). split; assumption.
Qed.
Lemma text_words header rows : Forall comment_line header -> Forall (Forall good_word) rows -> map split_line (flines (table_text header rows)) = map (fun _ => []) header ++ rows.
Proof.
  intros H HR. unfold table_text. induction H as [|l header Hl H IH].
  - cbn [flat_map app map]. induction HR as [|r rows Hr HR IH]; [reflexivity|]. cbn [flat_map]. rewrite <- app_assoc.
    destruct (row_words r Hr) as [P W]. rewrite flines_nl by exact P. cbn [map]. rewrite W. f_equal. exact IH.
  - cbn [flat_map map app]. rewrite <- !app_assoc. rewrite comment_flines by exact Hl. cbn [map]. rewrite comment_words by exact Hl. f_equal. exact IH.
Qed.
Lemma text_read header rows c : Forall comment_line header -> Forall (Forall good_word) rows -> (0 < c)%nat -> (forall r, In r rows -> length r = c) ->
  genfromtxt (table_text header rows) = Ok (map (map to_ext) rows).
Proof.
  intros Hh HG Hc Hr. unfold genfromtxt. rewrite text_words by assumption.
  assert (filter (fun ws : list bytes => negb (Nat.eqb (length ws) 0)) (map (fun _ => []) header ++ rows) = rows) as ->.
  { rewrite filter_app. assert (forall h : list bytes, filter (fun ws : list bytes => negb (Nat.eqb (length ws) 0)) (map (fun _ => []) h) = []) as -> by (induction h; [reflexivity|assumption]).
    cbn [app]. clear Hh HG. induction rows as [|r rows IH]; [reflexivity|]. cbn [filter]. rewrite (Hr r) by (left; reflexivity).
    destruct c; [lia|]. cbn [Nat.eqb negb]. f_equal. apply IH. intros r' H'. apply Hr. right. exact H'. }
  destruct rows as [|r rows]; [reflexivity|]. match goal with |- (if ?b then _ else _) = _ => assert (b = true) as -> end; [|reflexivity].
  apply forallb_forall. intros ws Hw. apply Nat.eqb_eq. rewrite (Hr ws Hw), (Hr r) by (left; reflexivity). reflexivity.
Qed.
Lemma good_fixed d q : (0 < d)%nat -> good_word (fmt_fixed d q).
Proof. intros Hd. destruct (fmt_fixed_plain d q Hd) as [P N]. split; [apply fmt_fixed_fplain; exact Hd|auto]. Qed.
Lemma good_fixed_opt x : good_word (fmt_fixed_opt 3 x).
Proof.
  destruct x as [x|]; cbn [fmt_fixed_opt]; [destruct (fmt_fixedR_as 3 x ltac:(lia)) as (q & -> & _); apply good_fixed; lia|].
  split; [repeat constructor; vm_compute; discriminate|]. split; [repeat constructor|discriminate].
Qed.

(** ** The run *)
(** The lines of the table: the time and, for file i, what was asked for, each with three decimals ('nan' for no number). *)
Definition angle_rows (want : bool) (height : option Qc) (dt : Qc) (n : nat) (c : found) : list (list (option R)) :=
  map (fun i => Some (QR (NQ i * dt)) :: (match height with Some _ => [nth i (measured c) None; nth i (left c) None; nth i (right c) None] | None => [] end) ++
                (if want then [nth i (fit c) None] else [])) (seq 0 n).
Definition angle_text (header : list bytes) (rows : list (list (option R))) : bytes := table_text header (map (map (fmt_fixed_opt 3)) rows).
Definition angles_header (en : env) (base height_text : bytes) (begin : Z) (last : bound) (want : bool) (height : option Qc) : list bytes :=
  [txt "# Measured contact angles of system"; txt "# "; txt "# Created by module: " ++ e_module en; txt "# Creation date: " ++ e_date en; txt "# Using module version: " ++ e_version en; txt "# ";
   txt "# Input:"; txt "#   File base path: " ++ base; txt "#   Begin, end: " ++ fmt_int begin ++ txt ", " ++ match last with Upto z => fmt_int z | Inf => txt "inf" end;
   txt "#   Measured at height: " ++ height_text; txt "#   Delta-t: 1.0"; txt "#   Interface options: See original files."; txt "# ";
   txt ("# t (ps)" ++ (match height with Some _ => " Mean (deg.) Left (deg.) Right (deg.)" | None => "" end) ++ (if want then " Fit (deg.)" else ""))].

Lemma nth_map_seq {A} (f : nat -> A) n i d : (i < n)%nat -> nth i (map f (seq 0 n)) d = f i.
Proof. intros H. rewrite (nth_indep _ d (f (0%nat))) by (rewrite map_length, seq_length; exact H). rewrite map_nth, seq_nth by exact H. reflexivity. Qed.
(** Files in an unbroken run, with the angles of all of them (C70-C72): they are returned, and written below the header.  No other file changes, and if there was
    an output before its content is kept. *)
Theorem C82_run : forall ffuel en bt ht d base want height dt out fo n c, wf d -> out <> ""%string ->
  let begin := match o_begin fo with Some b => b | None => 1%Z end in
  let e := match o_end fo with Some e => e | None => Inf end in
  let ext := match o_ext fo with Some x => x | None => ".xvg"%string end in
  let text := angle_text (angles_header en bt ht begin e want height) (angle_rows want height dt n c) in
  (n < ffuel)%nat -> (0 < n)%nat -> want = true \/ height <> None ->
  run_length (fun z => match e with Upto m => (z <= m)%Z | Inf => True end /\ exists_path d (os_path (fname base z ext)) = true) begin n ->
  angle_loop want height none_found (map (fun k => Average.content d (fname base k ext)) (numbers begin n)) = Ok c ->
  exists d', angle_run ffuel en bt ht d base want height dt out fo = (d', Ok (map (fun i => NQ i * dt) (seq 0 n), c)) /\
    wf d' /\ lookup (files d') (os_path out) = Some (string_of text) /\
    (forall q, exists_path d q = true -> q <> os_path out -> lookup (files d') q = lookup (files d) q) /\
    Permutation (contents d') (contents d ++ [string_of text]).
Proof.
  intros ffuel en bt ht d base want height dt out fo n c Hw Ho begin e ext text Hf H0 HW Hr HL. unfold angle_run.
  destruct (InterfaceAngleProps.C72_run ffuel d base want height dt fo n Hf Hr) as [_ HR]. fold begin e ext in HR. destruct (HR c HL) as (times & ER & HT & _). rewrite ER.
  destruct (HT HW) as [LT NT]. assert (times = map (fun i => NQ i * dt) (seq 0 n)) as ET.
  { apply nth_ext with (d := 0) (d' := 0); [rewrite map_length, seq_length; exact LT|]. intros i Hi. rewrite nth_map_seq by lia. apply nth_error_nth. apply NT. lia. }
  unfold output_of. destruct (String.eqb_spec out ""); [contradiction|].
  set (fs := map (fun k => Average.content d (fname base k ext)) (numbers begin n)) in *. assert (length fs = n) as LF by (unfold fs; rewrite map_length; apply numbers_length).
  assert (fs <> []) as NE by (intros C; rewrite C in LF; cbn in LF; lia).
  destruct (InterfaceAngleProps.C72_columns want height fs c dt HL NE HW) as (EC & EL & _).
  assert (times_of want height dt c = times) as ETO.
  { destruct (InterfaceAngleProps.C72_series _ _ _ _ HL) as (_ & _ & A3 & A4 & _). rewrite LF in A3, A4. rewrite ET. unfold times_of.
    destruct height as [h|]; [destruct (A4 ltac:(discriminate)) as (-> & _); reflexivity|]. destruct want; [rewrite A3 by reflexivity; reflexivity|destruct HW as [HW|HW]; [discriminate|contradiction]]. }
  rewrite ETO, LF in EC. set (chunk := string_of (savetxt_opt _ _)).
  assert (chunk = string_of text) as EX.
  { unfold chunk. f_equal. unfold text, angle_text, table_text, savetxt_opt. f_equal.
    - unfold angle_header. rewrite EL. unfold text_lines, module_header, Utils.pop_fileopts, end_text. cbn [Utils.f_begin Utils.f_end o_begin o_end Utils.dflt]. reflexivity.
    - unfold angle_table, angle_rows. rewrite LT, EC. rewrite !flat_map_concat_map, !map_map. f_equal. apply map_ext_in. intros i Hi. apply in_seq in Hi. do 4 f_equal. unfold row_at. cbn [map]. rewrite nth_map_seq by lia. f_equal.
      rewrite map_app. f_equal; [destruct height; reflexivity|destruct want; reflexivity]. }
  destruct (do_call_spec d (os_path out) [chunk] Hw) as (d1 & E1 & W1 & P1 & L1 & O1). rewrite E1. cbn [String.concat] in P1, L1. rewrite EX in P1, L1. exists d1. rewrite ET. split; [reflexivity|]. split; [exact W1|]. split; [exact L1|]. split; [intros q A B; exact (O1 q B A)|exact P1].
Qed.
Print Assumptions C82_run.
(** If a file cannot be used (C72) there is no output. *)
Theorem C82_failing_file : forall ffuel en bt ht d base want height dt out fo n err,
  let begin := match o_begin fo with Some b => b | None => 1%Z end in
  let e := match o_end fo with Some e => e | None => Inf end in
  let ext := match o_ext fo with Some x => x | None => ".xvg"%string end in
  (n < ffuel)%nat -> run_length (fun z => match e with Upto m => (z <= m)%Z | Inf => True end /\ exists_path d (os_path (fname base z ext)) = true) begin n ->
  angle_loop want height none_found (map (fun k => Average.content d (fname base k ext)) (numbers begin n)) = Err err ->
  angle_run ffuel en bt ht d base want height dt out fo = (d, Err err).
Proof.
  intros ffuel en bt ht d base want height dt out fo n err begin e ext Hf Hr HL. unfold angle_run.
  destruct (InterfaceAngleProps.C72_run ffuel d base want height dt fo n Hf Hr) as [HR _]. rewrite (HR err HL). reflexivity.
Qed.
Print Assumptions C82_failing_file.
Theorem C82_not_saved : forall ffuel en bt ht d base want height dt fo, angle_run ffuel en bt ht d base want height dt "" fo = (d, interface_contact_angle ffuel d base want height dt fo).
Proof. intros. unfold angle_run. destruct (interface_contact_angle ffuel d base want height dt fo) as [[times c]|]; reflexivity. Qed.
Print Assumptions C82_not_saved.
(** If nothing is asked for, the output is a header without lines. *)
Theorem C82_nothing_asked : forall ffuel en bt ht d base dt out fo n c, wf d -> out <> ""%string ->
  let begin := match o_begin fo with Some b => b | None => 1%Z end in
  let e := match o_end fo with Some e => e | None => Inf end in
  let ext := match o_ext fo with Some x => x | None => ".xvg"%string end in
  (n < ffuel)%nat -> run_length (fun z => match e with Upto m => (z <= m)%Z | Inf => True end /\ exists_path d (os_path (fname base z ext)) = true) begin n ->
  angle_loop false None none_found (map (fun k => Average.content d (fname base k ext)) (numbers begin n)) = Ok c ->
  exists d', angle_run ffuel en bt ht d base false None dt out fo = (d', Ok ([], c)) /\ lookup (files d') (os_path out) = Some (string_of (angle_text (angles_header en bt ht begin e false None) [])).
Proof.
  intros ffuel en bt ht d base dt out fo n c Hw Ho begin e ext Hf Hr HL. unfold angle_run.
  destruct (InterfaceAngleProps.C72_run ffuel d base false None dt fo n Hf Hr) as [_ HR]. fold begin e ext in HR. destruct (HR c HL) as (times & ER & _ & HT). rewrite ER, (HT eq_refl eq_refl).
  unfold output_of. destruct (String.eqb_spec out ""); [contradiction|]. destruct (InterfaceAngleProps.C72_series _ _ _ _ HL) as (A1 & A2 & _).
  match goal with |- context [Utils.do_call d (os_path out, [?k])] => set (chunk := k) end.
  assert (chunk = string_of (angle_text (angles_header en bt ht begin e false None) [])) as EX.
  { unfold chunk. f_equal. unfold angle_text, table_text, savetxt_opt, angle_table. cbn [length seq map flat_map]. f_equal. unfold angle_header, table_legend. rewrite (A1 eq_refl). destruct (A2 eq_refl) as (-> & _). reflexivity. }
  destruct (do_call_spec d (os_path out) [chunk] Hw) as (d1 & E1 & _ & _ & L1 & _). rewrite E1. cbn [String.concat] in L1. rewrite EX in L1. exists d1. auto.
Qed.
Print Assumptions C82_nothing_asked.

(** ** Reading it back *)
Definition reads_as (x : option R) (w : ext) : Prop := match x with Some x => exists y, w = Fin y /\ nearest_decimalR 3 x y | None => w = NaN end.
Theorem C82_read_back : forall header rows c, Forall comment_line header -> (0 < c)%nat -> (forall r, In r rows -> length r = c) ->
  exists table, genfromtxt (angle_text header rows) = Ok table /\ Forall2 (Forall2 reads_as) rows table.
Proof.
  intros header rows c Hh Hc Hr. unfold angle_text. rewrite (text_read header _ c Hh); [|apply Forall_forall; intros r H; apply in_map_iff in H; destruct H as (x & <- & _); apply Forall_forall; intros w H; apply in_map_iff in H; destruct H as (y & <- & _); apply good_fixed_opt|exact Hc|].
  2:{ intros r H. apply in_map_iff in H. destruct H as (x & <- & H). rewrite map_length. exact (Hr x H). }
  eexists. split; [reflexivity|]. clear. induction rows as [|r rows IH]; cbn [map]; constructor; [|exact IH]. induction r as [|x r IHr]; cbn [map]; constructor; [|exact IHr].
  destruct x as [x|]; cbn [reads_as fmt_fixed_opt]; [|reflexivity]. destruct (fmt_fixedR_as 3 x ltac:(lia)) as (q & -> & E). exists (round_dec 3 q). split; [apply to_ext_fixed|]. rewrite <- E. apply round_decR_nearest.
Qed.
Print Assumptions C82_read_back.
Import InterfaceFilesProps.
Theorem C82_header : forall en bt ht begin last want height, one_line (e_module en) -> one_line (e_date en) -> one_line (e_version en) -> one_line bt -> one_line ht ->
  Forall comment_line (angles_header en bt ht begin last want height).
Proof.
  intros en bt ht begin last want height H1 H2 H3 H4 H5.
  assert (forall s t, one_line s -> one_line t -> comment_line (chr 35 :: s ++ t)) as C.
  { intros s u Hs Ht. exists (s ++ u). split; [reflexivity|]. apply Forall_app. split; assumption. }
  assert (forall s, one_line s -> comment_line (chr 35 :: s)) as C0 by (intros s Hs; exists s; split; [reflexivity|exact Hs]).
  assert (one_line (fmt_int begin ++ txt ", " ++ match last with Upto z => fmt_int z | Inf => txt "inf" end)) as B.
  { apply Forall_app; split; [apply one_line_int|]. apply Forall_app; split; [lit|]. destruct last; [apply one_line_int|lit]. }
  unfold angles_header.
  repeat (apply Forall_cons; [match goal with
  | |- comment_line (txt ?s ++ ?t) => apply (C (tl (txt s)) t); [lit|assumption]
  | |- comment_line (txt (_ ++ (match height with Some _ => _ | None => _ end) ++ _)) => destruct height; destruct want; match goal with |- comment_line (txt ?s) => apply (C0 (tl (txt s))); lit end
  | |- comment_line (txt ?s) => apply (C0 (tl (txt s))); lit
  end|]). apply Forall_nil.
Qed.
Print Assumptions C82_header.

(** ** Two files and a step of time of 2: a thin droplet, with right angles at its feet but as a segment 180 degrees, and a flat one, without point above its feet. *)
Definition ex_file (ls : list string) : string := string_of (flat_map (fun l => txt l ++ nl) ls).
Definition an_disk : disk := {| files := [(os_path "i_00001.xvg", ex_file ["# x y"; "1.0 0.0"; "1.0 2.0"; "1.0 2.0"; "1.0 0.0"]%string);
                                          (os_path "i_00002.xvg", ex_file ["0.0 0.0"; "4.0 0.0"]%string); (os_path "a.xvg", "old"%string)]; Utils.dirs := [] |}.
Definition an_env : env := mkEnv (txt "m") (txt "now") (txt "1") (txt "/").
Definition an_fo : fopts := {| o_begin := None; o_end := None; o_ext := None; o_outext := None |}.
Definition an_found : found := mkFound [Some 180%R; Some 0%R] [Some 90%R; None] [Some 90%R; None] [Some 90%R; None].
Lemma degrees_half_pi : ContactAngle.degrees (PI / 2) = 90%R.
Proof. unfold ContactAngle.degrees. field. apply PI_neq0. Qed.
Lemma an_loop : angle_loop true (Some (ZQ 2)) none_found (map (fun k => Average.content an_disk (fname "i_" k ".xvg")) (numbers 1 2)) = Ok an_found.
Proof.
  change (numbers 1 2) with [1; 2]%Z. cbn [map angle_loop].
  assert (read_interface_file (Average.content an_disk (fname "i_" 1 ".xvg")) = Ok ([(1, 0); (1, ZQ 2)], [(1, 0); (1, ZQ 2)])) as E1 by (vm_compute; reflexivity).
  assert (read_interface_file (Average.content an_disk (fname "i_" 2 ".xvg")) = Ok ([(0, 0)], [(ZQ 4, 0)])) as E2 by (vm_compute; reflexivity).
  unfold angle_step. rewrite E1. cbn [rbind]. rewrite E2. cbn [rbind].
  assert (forall right, measure_angle [(1, 0); (1, ZQ 2)] right (ZQ 2) = Ok (Some 90%R)) as M1.
  { intros right. unfold measure_angle. assert (secant [(1, 0); (1, ZQ 2)] right (ZQ 2) = Ok (0, ZQ 2)) as -> by (destruct right; vm_compute; reflexivity). cbn [rmap rbind].
    apply f_equal. unfold vector_angle. assert (qeq 0 0 && qeq (ZQ 2) 0 = false)%bool as -> by (vm_compute; reflexivity). apply f_equal. rewrite QR_0. unfold Rdiv. rewrite Rmult_0_l, acos_0. exact degrees_half_pi. }
  assert (measure_angle [(0, 0)] false (ZQ 2) = Ok None) as M2 by (vm_compute; reflexivity). assert (measure_angle [(ZQ 4, 0)] true (ZQ 2) = Ok None) as M3 by (vm_compute; reflexivity).
  assert (fit_angle_from_segment [(1, 0); (1, ZQ 2)] [(1, 0); (1, ZQ 2)] = Ok (Some 180%R)) as F1.
  { unfold fit_angle_from_segment. assert (exists h, segment [(1, 0); (1, ZQ 2)] [(1, 0); (1, ZQ 2)] = Ok (0, h) /\ qlt 0 h = true) as (h & -> & HH) by (eexists; split; [vm_compute; reflexivity|vm_compute; reflexivity]). cbn [rmap rbind]. apply f_equal.
    unfold segment_angle. assert (qeq 0 0 = true) as -> by reflexivity. rewrite HH. rewrite degrees_half_pi. apply f_equal. lra. }
  assert (fit_angle_from_segment [(0, 0)] [(ZQ 4, 0)] = Ok (Some 0%R)) as F2.
  { unfold fit_angle_from_segment. assert (exists w h, segment [(0, 0)] [(ZQ 4, 0)] = Ok (w, h) /\ qeq w 0 = false /\ h = 0) as (w & h & -> & HH & ->) by (do 2 eexists; split; [vm_compute; reflexivity|]; split; [vm_compute; reflexivity|apply Qc_is_canon; reflexivity]). cbn [rmap rbind]. apply f_equal.
    unfold segment_angle. rewrite HH. apply f_equal. rewrite QR_0. unfold Rdiv. rewrite Rmult_0_r, Rmult_0_l, atan_0. unfold ContactAngle.degrees. field. apply PI_neq0. }
  rewrite F1. cbn [rbind]. rewrite !M1. cbn [rbind]. rewrite F2. cbn [rbind]. rewrite M2, M3. cbn [rbind fit measured left right none_found app mean2]. unfold an_found. replace ((90 + 90) / 2)%R with 90%R by field. reflexivity.
Qed.
Definition an_lines : bytes := txt "0.000 90.000 90.000 90.000 180.000" ++ nl ++ txt "2.000 nan nan nan 0.000" ++ nl.
Lemma an_text : angle_text (angles_header an_env (txt "'/i_'") (txt "2.0") 1 Inf true (Some (ZQ 2))) (angle_rows true (Some (ZQ 2)) (ZQ 2) 2 an_found) =
  angle_text (angles_header an_env (txt "'/i_'") (txt "2.0") 1 Inf true (Some (ZQ 2))) [] ++ an_lines.
Proof.
  unfold angle_text, table_text. cbn [map flat_map]. rewrite app_nil_r. f_equal. unfold angle_rows, an_found. cbn [seq map measured left right fit nth app fmt_fixed_opt flat_map].
  replace 180%R with (QR (ZQ 180)) by apply InterfaceAngleProps.QR_ZQ'. replace 90%R with (QR (ZQ 90)) by apply InterfaceAngleProps.QR_ZQ'. rewrite <- QR_0. rewrite !fmt_fixedR_QR. vm_compute. reflexivity.
Qed.
Lemma an_wf : wf an_disk.
Proof. unfold wf, an_disk. cbn [files map fst]. repeat constructor; vm_compute; intuition discriminate. Qed.
Lemma an_range : run_length (fun z => True /\ exists_path an_disk (os_path (fname "i_" z ".xvg")) = true) 1 2.
Proof.
  split.
  - intros k Hk. split; [exact I|]. assert (k = 0 \/ k = 1)%Z as [-> | ->] by lia; vm_compute; reflexivity.
  - intros [_ C]. vm_compute in C. discriminate.
Qed.
Lemma an_run : exists d', angle_run 10 an_env (txt "'/i_'") (txt "2.0") an_disk "i_" true (Some (ZQ 2)) (ZQ 2) "a.xvg" an_fo = (d', Ok ([NQ 0 * ZQ 2; NQ 1 * ZQ 2], an_found)) /\
  lookup (files d') (os_path "a.xvg") = Some (string_of (angle_text (angles_header an_env (txt "'/i_'") (txt "2.0") 1 Inf true (Some (ZQ 2))) [] ++ an_lines)).
Proof.
  destruct (C82_run 10 an_env (txt "'/i_'") (txt "2.0") an_disk "i_" true (Some (ZQ 2)) (ZQ 2) "a.xvg" an_fo 2 an_found an_wf ltac:(discriminate) ltac:(lia) ltac:(lia) (or_introl eq_refl) an_range an_loop) as (d' & E & _ & L & _).
  cbn [an_fo o_begin o_end] in L. rewrite an_text in L. exists d'. split; [exact E|exact L].
Qed.
Example C82_ex := an_run.
(** "NaN values are converted to 0": a line with 'nan' is written instead. *)
Theorem C82_nan_refuted : ~ (forall ffuel en bt ht d base want height dt out fo d' times c text, wf d -> out <> ""%string ->
  angle_run ffuel en bt ht d base want height dt out fo = (d', Ok (times, c)) -> lookup (files d') (os_path out) = Some text ->
  forall l, In l (flines (bytes_of text)) -> ~ In (txt "nan") (split_line l)).
Proof.
  intros H. destruct an_run as (d' & E & L). assert ("a.xvg" <> "")%string as NE by discriminate. specialize (H _ _ _ _ _ _ _ _ _ _ _ _ _ _ _ an_wf NE E L). clear E L.
  remember (string_of (angle_text (angles_header an_env (txt "'/i_'") (txt "2.0") 1 Inf true (Some (ZQ 2))) [] ++ an_lines)) as s eqn:Es.
  assert (existsb (fun l => existsb (fun w => String.eqb (string_of w) "nan") (split_line l)) (flines (bytes_of s)) = true) as K by (rewrite Es; vm_compute; reflexivity).
  apply existsb_exists in K. destruct K as (l & Hl & K). apply existsb_exists in K. destruct K as (w & Hw & K). apply String.eqb_eq in K.
  apply (H l Hl). assert (w = txt "nan") as <-; [|exact Hw]. rewrite <- (bytes_string w), K. reflexivity.
Qed.
Print Assumptions C82_nan_refuted.
Theorem C82_delta_t_refuted : ~ (forall ffuel en bt ht d base want height dt out fo d' times c, wf d -> out <> ""%string ->
  angle_run ffuel en bt ht d base want height dt out fo = (d', Ok (times, c)) ->
  exists text, lookup (files d') (os_path out) = Some text /\ has_line (txt "#   Delta-t: " ++ fmt_fixed 1 dt) text).
Proof.
  intros H. destruct an_run as (d' & E & L). assert ("a.xvg" <> "")%string as NE by discriminate. destruct (H _ _ _ _ _ _ _ _ _ _ _ _ _ _ an_wf NE E) as (text & L' & HT).
  remember (string_of (angle_text (angles_header an_env (txt "'/i_'") (txt "2.0") 1 Inf true (Some (ZQ 2))) [] ++ an_lines)) as s eqn:Es.
  assert (text = s) as -> by congruence. clear L L' E H. unfold has_line in HT. apply (in_map string_of) in HT.
  assert (existsb (String.eqb (string_of (txt "#   Delta-t: " ++ fmt_fixed 1 (ZQ 2)))) (map string_of (flines (bytes_of s))) = true) as K by (apply existsb_exists; eexists; split; [exact HT|apply String.eqb_refl]).
  assert (existsb (String.eqb (string_of (txt "#   Delta-t: " ++ fmt_fixed 1 (ZQ 2)))) (map string_of (flines (bytes_of s))) = false) as N by (rewrite Es; vm_compute; reflexivity). rewrite N in K. discriminate.
Qed.
Print Assumptions C82_delta_t_refuted.
