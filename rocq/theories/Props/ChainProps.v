(** C96: commands which use what other commands wrote. *)
From Coq Require Import String Ascii Reals Permutation DecimalString.
From Verif.Base Require Import QcX QcR Res Np Bytes.
From Verif.Model Require Import Text PyText Click Cli CliRuns.
From Verif.Spec Require Import CliSpec CliReads PolygonSpec.
From Verif.Model Require Import Bins Table.
From Verif.Proofs Require Import TextP TableP PyTextP ClickP CliP CliTextP UtilsDisk.
From Verif.Props Require Import CliProps CliTextProps CliRunsProps.
From Verif.Model Require Utils Formats Collect InterfaceFiles SampleFiles Interface Average.
From Verif.Spec Require FilesSpec DiskSpec.
From Verif.Props Require InterfaceFilesProps InterfaceRunProps AngleRunProps CollectProps InterfaceSampleProps.
From Verif.Model Require SpreadingFiles SpreadingView.
From Verif.Model Require Import Figure CliDraw CurveFigures CurveRuns.
From Verif.Spec Require SpreadingSpec TableSpec.
From Verif.Props Require SpreadingProps SpreadingRunProps SpreadingFilesProps CurveRunProps CurveFigureProps.
Import DiskSpec(wf, contents).
Import InterfaceFilesProps(one_line, stored).
Local Open Scope string_scope.
Local Open Scope list_scope.
Local Notation length := List.length.

(** ** Names *)
Lemma one_line_text a b : one_line (txt (a ++ b)) <-> one_line (txt a) /\ one_line (txt b).
Proof.
  unfold one_line, txt. induction a as [|c a IH]; cbn [append list_ascii_of_string]; [split; [intros H; split; [constructor|exact H]|intros [_ H]; exact H]|].
  rewrite !Forall_cons_iff, IH. tauto.
Qed.
Lemma one_line_digits u : one_line (txt (NilEmpty.string_of_uint u)).
Proof. unfold one_line, txt. induction u; cbn [NilEmpty.string_of_uint list_ascii_of_string]; constructor; try assumption; vm_compute; split; discriminate. Qed.
Lemma one_line_zeros n : one_line (txt (Utils.zeros n)).
Proof. unfold one_line, txt. induction n; cbn [Utils.zeros list_ascii_of_string]; constructor; [vm_compute; split; discriminate|assumption]. Qed.
Lemma one_line_name base k ext : one_line (txt base) -> one_line (txt ext) -> one_line (txt (Utils.fname base k ext)).
Proof.
  intros Hb He. unfold Utils.fname. apply one_line_text. split; [exact Hb|]. apply one_line_text. split; [|exact He]. unfold Utils.fmt05d, Utils.dec. destruct (k <? 0)%Z; cbv zeta.
  - apply one_line_text. split; [constructor; [vm_compute; split; discriminate|constructor]|]. apply one_line_text. split; [apply one_line_zeros|apply one_line_digits].
  - apply one_line_text. split; [apply one_line_zeros|apply one_line_digits].
Qed.

(** ** Points of a collected interface *)
(** An array as it is collected: the heights of the right edge are those of the left one, from above. *)
Definition two_edges (a : list (Qc * Qc)) : Prop := exists k, length a = (k + k)%nat /\
  forall i, (i < k)%nat -> snd (nth i a (0, 0)) = snd (nth (k + k - 1 - i) a (0, 0)).
Lemma two_edges_polygon a : two_edges a -> exists ls, a = polygon ls.
Proof.
  intros (k & L & H). exists (map (fun i => (snd (nth i a (0, 0)), fst (nth i a (0, 0)), fst (nth (k + k - 1 - i) a (0, 0)))) (seq 0 k)).
  unfold polygon. rewrite !map_map. unfold left, right, height. cbn [fst snd]. apply nth_ext with (d := (0, 0)) (d' := (0, 0)).
  { rewrite app_length, rev_length, !map_length, seq_length. exact L. }
  intros i Hi. rewrite L in Hi. destruct (Nat.ltb_spec i k) as [Hk|Hk].
  - rewrite app_nth1 by (rewrite map_length, seq_length; exact Hk). rewrite AngleRunProps.nth_map_seq by exact Hk. apply surjective_pairing.
  - rewrite app_nth2 by (rewrite map_length, seq_length; exact Hk). rewrite map_length, seq_length. rewrite rev_nth by (rewrite map_length, seq_length; lia). rewrite map_length, seq_length.
    rewrite AngleRunProps.nth_map_seq by lia. replace (k - S (i - k))%nat with (k + k - 1 - i)%nat by lia. rewrite (H (k + k - 1 - i)%nat) by lia. replace (k + k - 1 - (k + k - 1 - i))%nat with i by lia. apply surjective_pairing.
Qed.
Lemma collected_two_edges cutoff radius nb lims o maps : forall old arrays, Collect.collect_interfaces bM maps cutoff radius nb lims old o = Ok arrays ->
  forall a, In a arrays -> two_edges a /\ (2 <= length a)%nat.
Proof.
  induction maps as [|[b fi] maps IH]; intros old arrays H a Ha; cbn [Collect.collect_interfaces] in H; [injection H as <-; destruct Ha|].
  destruct (Collect.get_interface_coordinates bM b fi cutoff radius nb lims old o) as [[a1 st]|] eqn:E; [|discriminate]. cbn [rbind] in H.
  destruct (Collect.collect_interfaces bM maps cutoff radius nb lims (Some st) o) as [rest|] eqn:E2; [|discriminate]. cbn [rbind] in H. injection H as <-.
  destruct Ha as [<-|Ha]; [|exact (IH _ _ E2 a Ha)]. destruct (CollectProps.C33_array _ _ _ _ _ _ _ _ _ _ _ E) as (pairs & box & by_ & cx & _ & _ & L2 & LA & HP).
  split; [|lia]. exists (length pairs). split; [exact LA|]. intros i Hi. destruct (nth_error pairs i) as [[il ir]|] eqn:En; [|apply nth_error_None in En; lia].
  destruct (HP i il ir En) as (kl & kr & H1 & H2). rewrite LA in H2. rewrite (nth_error_nth _ _ _ H1), (nth_error_nth _ _ _ H2). reflexivity.
Qed.
Definition rounded (a : list (Qc * Qc)) : list (Qc * Qc) := map (fun p => (round_dec 3 (fst p), round_dec 3 (snd p))) a.
Lemma rounded_two_edges a : two_edges a -> two_edges (rounded a).
Proof.
  intros (k & L & H). exists k. split; [unfold rounded; rewrite map_length; exact L|]. intros i Hi. unfold rounded.
  assert (forall j, (j < length a)%nat -> nth j (map (fun p : Qc * Qc => (round_dec 3 (fst p), round_dec 3 (snd p))) a) (0, 0) = (round_dec 3 (fst (nth j a (0, 0))), round_dec 3 (snd (nth j a (0, 0))))) as N.
  { intros j Hj. rewrite (nth_indep _ (0, 0) ((fun p : Qc * Qc => (round_dec 3 (fst p), round_dec 3 (snd p))) (0, 0))) by (rewrite map_length; exact Hj). exact (map_nth (fun p : Qc * Qc => (round_dec 3 (fst p), round_dec 3 (snd p))) a (0, 0) j). }
  rewrite !N by lia. cbn [snd]. rewrite (H i Hi). reflexivity.
Qed.
Lemma points_of_text d name header a : Average.content d name = Some (InterfaceFiles.interface_text header a) -> Forall comment_line header -> (2 <= length a)%nat ->
  InterfaceRunProps.points_in d name (rounded a).
Proof.
  intros H Hh Hl. exists (InterfaceFiles.interface_text header a). split; [exact H|]. unfold InterfaceFiles.interface_text, unpack2.
  rewrite (table_read header _ 2) by (try assumption; try lia; intros r Hr; apply in_map_iff in Hr; destruct Hr as (p & <- & _); reflexivity).
  cbn [rbind]. rewrite map_map. cbn [map]. destruct a as [|p [|q pts]]; cbn [List.length] in Hl; [lia|lia|]. cbn [map List.length Nat.eqb]. cbn [rbind nth rounded fst snd].
  unfold rounded. rewrite !map_map. cbn [nth fst snd]. reflexivity.
Qed.

(** The value of the variable for points which have one. *)
Definition value_of (variable : string) (c : list (Qc * Qc)) : R :=
  if String.eqb variable "area" then match InterfaceSampleProps.area_of c with Ok a => QR a | Err _ => 0%R end else LengthSpec.path_length (map (fun p => (QR (fst p), QR (snd p))) c).
Lemma value_measured variable c : In variable ["area"; "length"] -> (exists ls, c = polygon ls) -> InterfaceRunProps.measured variable c (value_of variable c).
Proof.
  intros [<- | [<- | []]] (ls & ->); unfold value_of.
  - change ("area" =? "area") with true. left. split; [reflexivity|]. destruct (InterfaceSampleProps.C36_polygon_area ls) as (a & E & _). exists a. rewrite E. split; reflexivity.
  - change ("length" =? "area") with false. right. split; reflexivity.
Qed.
Lemma rows_all dt values : InterfaceRunProps.rows_of_samples dt (map Some values) = map (fun i => (NQ i * dt, nth i values 0%R)) (seq 0 (length values)).
Proof.
  unfold InterfaceRunProps.rows_of_samples. rewrite map_length.
  assert (forall l s, flat_map (fun p : nat * option R => match snd p with Some v => [(NQ (fst p) * dt, v)] | None => [] end) (combine (seq s (length l)) (map Some l)) =
    map (fun i => (NQ (s + i) * dt, nth i l 0%R)) (seq 0 (length l))) as G; [|exact (G values 0%nat)].
  induction l as [|v l IH]; intros s; [reflexivity|]. cbn [length seq map combine flat_map fst snd app]. rewrite Nat.add_0_r. cbn [nth]. f_equal. rewrite IH. rewrite <- seq_shift, map_map.
  apply map_ext. intros i. cbn [nth]. do 3 f_equal. lia.
Qed.

(** ** strata interface collect, strata interface sample *)
(** The second command reads what the first one wrote: if interfaces of [n] maps are collected and those from number [b2] to number [b2 + m - 1] of them are sampled, the output has a row for each of them, in order,
    with the area or length measured on the points as they were saved: the points of the collected interface, to three decimals.  Their area is that of a polygon with the same layers on both sides.
    The first command reports a TypeError when all is done (C79).  No content is lost. *)
Theorem C96_collect_sample : forall w dashed d argv1 occs1 base output rec cutoff bins radius ylim b e x n maps arrays argv2 occs2 variable fig save dt show xlim ylim2 title xlabel ylabel b2 m extfig,
  (* strata interface collect *)
  writes (takes interface_collect_options) argv1 occs1 [base; output] -> not_given occs1 help -> chosen occs1 ["--recenter"] (one_of ["off"; "com"; "zero"]) "zero" rec ->
  chosen occs1 ["-co"; "--cutoff"] (some_of number_text) None cutoff -> chosen occs1 ["-cb"; "--cutoff_bins"] int_text 1%Z bins -> chosen occs1 ["-cr"; "--cutoff_radius"] number_text (ZQ 1) radius ->
  chosen2 occs1 ["--ylim"] number_or_none (None, None) ylim ->
  chosen occs1 ["-b"; "--begin"] (int_from 0) 1%Z b -> chosen occs1 ["-e"; "--end"] (some_of (int_from 0)) None e -> chosen occs1 ["--ext"] as_is ".dat" x ->
  (* the maps and their interfaces *)
  wf d -> (n < w_ffuel w)%nat -> FilesSpec.run_length (fun z => match e with Some l => (z <= l)%Z | None => True end /\ Utils.exists_path d (Formats.os_path (Utils.fname base z x)) = true) b n ->
  (forall j k, (b <= j < k)%Z -> (k < b + Z.of_nat n)%Z -> Formats.os_path (Utils.fname output j ".xvg") <> Formats.os_path (Utils.fname base k x)) ->
  length maps = n -> (forall i mp, nth_error maps i = Some mp -> InterfaceFiles.flow_file (w_fuel w) (Average.content d (Utils.fname base (b + Z.of_nat i) x)) = Ok mp) ->
  Collect.collect_interfaces bM maps cutoff (Some radius) bins ylim None (if String.eqb rec "zero" then Collect.Zero else if String.eqb rec "com" then Collect.Com else Collect.OtherOption) = Ok arrays ->
  one_line (InterfaceFiles.e_module (w_env w)) -> one_line (InterfaceFiles.e_date (w_env w)) -> one_line (InterfaceFiles.e_version (w_env w)) -> one_line (InterfaceFiles.e_cwd (w_env w)) ->
  (forall v, one_line (w_repr w v)) -> one_line (txt output) ->
  (* strata interface sample *)
  writes (takes interface_sample_options) argv2 occs2 [output; variable] -> not_given occs2 help -> In variable ["area"; "length"] ->
  chosen occs2 ["-o"; "--save_fig"] (some_of as_is) None fig -> chosen occs2 ["-x"; "--save_xvg"] as_is "" save -> chosen occs2 ["-dt"; "--delta_t"] number_text (ZQ 1) dt ->
  switched occs2 ["--show"] ["--noshow"] true show -> chosen2 occs2 ["--xlim"] number_or_none (None, None) xlim -> chosen2 occs2 ["--ylim"] number_or_none (None, None) ylim2 ->
  chosen occs2 ["--title"] as_is "Droplet interface" title -> chosen occs2 ["--xlabel"] as_is "t (ps)" xlabel -> chosen occs2 ["--ylabel"] (some_of as_is) None ylabel ->
  chosen occs2 ["-b"; "--begin"] (int_from 0) 1%Z b2 -> chosen occs2 ["-e"; "--end"] (some_of (int_from 0)) None (Some (b2 + Z.of_nat m - 1)%Z) -> chosen occs2 ["--ext"] as_is ".xvg" ".xvg" ->
  chosen occs2 ["--extfig"] as_is ".png" extfig ->
  (b <= b2)%Z -> (b2 + Z.of_nat m <= b + Z.of_nat n)%Z -> save <> "" -> (forall k, (b2 <= k < b2 + Z.of_nat m)%Z -> Formats.os_path (Utils.fname output k ".xvg") <> Formats.os_path save) ->
  exists d1 d2 curves values text written,
    main w dashed d ("interface" :: "collect" :: argv1) = Some (Done d1 [] (Some TypeErr)) /\
    program w dashed d1 ("interface" :: "sample" :: argv2) = Some (Done d2 [] None) /\
    length curves = m /\ length values = m /\
    (forall i c, nth_error curves i = Some c -> exists a, nth_error arrays (Z.to_nat (b2 - b) + i) = Some a /\ stored a (map fst c) (map snd c) /\ (exists ls, c = polygon ls)) /\
    Forall2 (InterfaceRunProps.measured variable) curves values /\
    Utils.lookup (Utils.files d2) (Formats.os_path save) = Some (Formats.string_of text) /\
    text = InterfaceRunProps.samples_text (InterfaceRunProps.samples_header (header_of w "strata.interface.sample") (w_real w output) variable b2 (Utils.Upto (b2 + Z.of_nat m - 1)))
             (map (fun i => (NQ i * dt, nth i values 0%R)) (seq 0 m)) /\
    length written = n /\ Permutation (contents d2) (contents d ++ written ++ [Formats.string_of text]).
Proof.
  intros w dashed d argv1 occs1 base output rec cutoff bins radius ylim b e x n maps arrays argv2 occs2 variable fig save dt show xlim ylim2 title xlabel ylabel b2 m extfig
    W1 H1 Hrec Hco Hcb Hcr Hyl Hb He Hx Hw Hf Hr Hov HL HR HC O1 O2 O3 O4 O5 O6 W2 H2 Hv Hfig Hsave Hdt Hshow Hxl Hyl2 Hti Hxla Hyla Hb2 He2 Hx2 Hef Hlo Hhi Hs Hapart.
  pose proof (C78_interface_collect w dashed d argv1 occs1 base output rec cutoff bins radius ylim b e x W1 H1 Hrec Hco Hcb Hcr Hyl Hb He Hx) as E1. cbv zeta in E1.
  set (hdr := fun out : string => InterfaceFiles.interface_header (w_env w) [txt out] _) in E1. set (o := if String.eqb rec "zero" then _ else _) in *.
  set (fo := {| Utils.o_begin := Some b; Utils.o_end := _; Utils.o_ext := Some x; Utils.o_outext := None |}) in E1.
  assert (forall k, Forall comment_line (hdr (Utils.fname output k ".xvg"))) as HH.
  { intros k. unfold hdr. apply InterfaceFilesProps.C68_header; [exact O1|exact O2|exact O3|exact O4|constructor; [apply one_line_name; [exact O6|InterfaceFilesProps.lit]|constructor]|]. auto. }
  pose proof HC as HC'. rewrite InterfaceFilesP.with_state_fst in HC. destruct (InterfaceFilesP.with_state cutoff (Some radius) bins ylim o maps None) as [[arrays' st]|] eqn:ES; [|discriminate]. cbn [rmap rbind fst] in HC.
  assert (arrays' = arrays) as -> by (injection HC as ->; reflexivity).
  destruct (InterfaceFilesP.collect_frames (w_ffuel w) (w_fuel w) hdr cutoff (Some radius) bins ylim o d base output fo n n maps arrays st Hw) as (d1 & EC & Wd1 & R1 & K1 & written & LW & PW).
  { unfold fo. cbn [Utils.o_outext]. cbn [FormatsP.no_slash]. repeat split; discriminate. }
  { exact Hf. }
  { unfold fo. cbn [Utils.o_end Utils.o_ext Utils.o_begin]. destruct e; exact Hr. }
  { exact Hov. }
  { lia. }
  { exact HL. }
  { exact HR. }
  { exact ES. }
  rewrite Nat.sub_diag in EC. cbn [FilesSpec.numbers map InterfaceFiles.collect_loop] in EC.
  rewrite EC in E1. cbn [fst snd] in E1.
  set (s0 := Z.to_nat (b2 - b)). assert (Z.of_nat s0 = b2 - b)%Z as Hs0 by (unfold s0; lia). assert (length arrays = n) as LA by (rewrite (InterfaceFilesP.with_state_length _ _ _ _ _ _ _ _ _ ES); exact HL).
  pose proof (collected_two_edges _ _ _ _ _ _ _ _ HC') as HT.
  set (curves := map (fun i => rounded (nth (s0 + i) arrays [])) (seq 0 m)). set (values := map (value_of variable) curves).
  assert (length curves = m) as Lc by (unfold curves; rewrite map_length, seq_length; reflexivity). assert (length values = m) as Lv by (unfold values; rewrite map_length; exact Lc).
  assert (forall i, (i < m)%nat -> In (nth (s0 + i) arrays []) arrays) as HIn by (intros i Hi; apply nth_In; lia).
  assert (forall c, In c curves -> exists ls, c = polygon ls) as HP.
  { intros c Hc. unfold curves in Hc. apply in_map_iff in Hc as (i & <- & Hi). apply in_seq in Hi. apply two_edges_polygon, rounded_two_edges. apply HT, HIn. lia. }
  assert (forall i, (i < m)%nat -> Average.content d1 (Utils.fname output (b2 + Z.of_nat i) ".xvg") = Some (InterfaceFiles.interface_text (hdr (Utils.fname output (b2 + Z.of_nat i) ".xvg")) (nth (s0 + i) arrays []))) as HF.
  { intros i Hi. unfold Average.content. pose proof (R1 (s0 + i)%nat (nth (s0 + i) arrays []) (nth_error_nth' arrays [] (n := (s0 + i)%nat) ltac:(lia))) as R. unfold fo in R. cbn [Utils.o_begin Utils.o_outext] in R.
    replace (b + Z.of_nat (s0 + i))%Z with (b2 + Z.of_nat i)%Z in R by lia. rewrite R. cbn [option_map]. rewrite InterfaceFilesP.bytes_string. reflexivity. }
  destruct (InterfaceRunProps.C80_run (w_ffuel w) (header_of w "strata.interface.sample") (w_real w output) variable dt d1 output save (files_from b2 (Some (b2 + Z.of_nat m - 1)%Z) ".xvg") m (map Some values) Wd1 Hs) as (d2 & ER & _ & L2 & _ & P2).
  { lia. }
  { cbn [files_from Utils.o_begin Utils.o_end Utils.o_ext]. split.
    - intros k Hk. split; [lia|]. specialize (HF (Z.to_nat k) ltac:(lia)). rewrite Z2Nat.id in HF by lia. unfold Average.content in HF. unfold Utils.exists_path.
      destruct (Utils.lookup (Utils.files d1) (Formats.os_path (Utils.fname output (b2 + k) ".xvg"))); [reflexivity|discriminate].
    - intros [C _]. lia. }
  { intros i Hi. cbn [files_from Utils.o_begin Utils.o_ext]. apply Hapart. lia. }
  { rewrite map_length. exact Lv. }
  { intros i v Hi. cbn [files_from Utils.o_begin Utils.o_ext]. rewrite nth_error_map in Hi. destruct (nth_error values i) as [v'|] eqn:En; [|discriminate]. cbn [option_map] in Hi. injection Hi as <-.
    unfold values in En. rewrite nth_error_map in En. destruct (nth_error curves i) as [c|] eqn:Ec; [|discriminate]. cbn [option_map] in En. injection En as <-.
    assert (i < m)%nat as Hi by (rewrite <- Lc; apply nth_error_Some; congruence). exists c. split; [|apply value_measured; [exact Hv|apply HP; exact (nth_error_In _ _ Ec)]].
    unfold curves in Ec. rewrite nth_error_map, (nth_error_nth' _ 0%nat) in Ec by (rewrite seq_length; exact Hi). rewrite seq_nth in Ec by exact Hi. cbn [option_map plus] in Ec. injection Ec as <-.
    apply (points_of_text _ _ _ _ (HF i Hi)); [apply HH|]. apply HT, HIn. exact Hi. }
  cbn [files_from Utils.o_begin Utils.o_end] in L2, P2. rewrite rows_all, Lv in L2, P2, ER.
  exists d1, d2, curves, values. eexists. exists written. split; [exact E1|]. split.
  { rewrite (C78_interface_sample w dashed d1 argv2 occs2 output variable fig save dt show xlim ylim2 title xlabel ylabel b2 (Some (b2 + Z.of_nat m - 1)%Z) ".xvg" extfig) by assumption. rewrite ER. reflexivity. }
  split; [exact Lc|]. split; [exact Lv|]. split.
  { intros i c Ec. assert (i < m)%nat as Hi by (rewrite <- Lc; apply nth_error_Some; congruence). exists (nth (s0 + i) arrays []). split; [fold s0; apply nth_error_nth'; lia|].
    split; [|apply HP; exact (nth_error_In _ _ Ec)]. unfold curves in Ec. rewrite nth_error_map, (nth_error_nth' _ 0%nat) in Ec by (rewrite seq_length; exact Hi). rewrite seq_nth in Ec by exact Hi. cbn [option_map plus] in Ec. injection Ec as <-.
    unfold rounded. rewrite !map_map. cbn [fst snd]. apply InterfaceFilesProps.stored_round. }
  split.
  { unfold values. clear -HP Hv. induction curves as [|c l IH]; cbn [map]; constructor; [apply value_measured; [exact Hv|apply HP; left; reflexivity]|apply IH; intros c' Hc'; apply HP; right; exact Hc']. }
  split; [exact L2|]. split; [reflexivity|]. split; [exact LW|]. rewrite P2, PW. rewrite app_assoc. reflexivity.
Qed.
Print Assumptions C96_collect_sample.

(** ** A concrete pair of commands *)
Definition ex_arrays : list (list (Qc * Qc)) :=
  match Collect.collect_interfaces bM InterfaceFilesProps.file_maps (Some (ZQ 4)) (Some (ZQ 1)) 1 (None, None) None Collect.OtherOption with Ok a => a | Err _ => [] end.
Example C96_ex : forall w, w_ffuel w = 10%nat -> w_fuel w = 60%nat ->
  one_line (InterfaceFiles.e_module (w_env w)) -> one_line (InterfaceFiles.e_date (w_env w)) -> one_line (InterfaceFiles.e_version (w_env w)) -> one_line (InterfaceFiles.e_cwd (w_env w)) -> (forall v, one_line (w_repr w v)) ->
  exists d1 d2 c v text, main w true InterfaceFilesProps.ex_disk ["interface"; "collect"; "map_"; "out_"; "--recenter"; "off"; "-co"; "4"] = Some (Done d1 [] (Some TypeErr)) /\
    program w true d1 ["interface"; "sample"; "out_"; "area"; "-x"; "s.xvg"; "-b"; "2"; "-e"; "2"] = Some (Done d2 [] None) /\
    InterfaceRunProps.measured "area" c v /\ (exists a, nth_error ex_arrays 1 = Some a /\ stored a (map fst c) (map snd c)) /\
    text = InterfaceRunProps.samples_text (InterfaceRunProps.samples_header (header_of w "strata.interface.sample") (w_real w "out_") "area" 2 (Utils.Upto 2)) [(NQ 0 * ZQ 1, v)] /\
    Utils.lookup (Utils.files d2) (Formats.os_path "s.xvg") = Some (Formats.string_of text).
Proof.
  intros w Hff Hf O1 O2 O3 O4 O5.
  destruct (C96_collect_sample w true InterfaceFilesProps.ex_disk ["map_"; "out_"; "--recenter"; "off"; "-co"; "4"] [("--recenter", ["off"]); ("-co", ["4"])] "map_" "out_" "off" (Some (ZQ 4)) 1 (ZQ 1) (None, None) 1 None ".dat"
    2 InterfaceFilesProps.file_maps ex_arrays ["out_"; "area"; "-x"; "s.xvg"; "-b"; "2"; "-e"; "2"] [("-x", ["s.xvg"]); ("-b", ["2"]); ("-e", ["2"])] "area" None "s.xvg" (ZQ 1) true (None, None) (None, None)
    "Droplet interface" "t (ps)" None 2 1 ".png") as (d1 & d2 & curves & values & text & written & E1 & E2 & Lc & Lv & HC & HM & L & HT & _).
  - apply (writes_ext (arity interface_collect_cmd)); [intros f; exact (arity_flatten interface_collect_cmd f)|]. apply scan_writes; reflexivity.
  - not_there.
  - left. exists "--recenter", "off". split; [split; [cbn; auto|eexists [], _; split; [reflexivity|not_there]]|]. split; [cbn; auto|reflexivity].
  - left. exists "-co", "4". split; [split; [cbn; auto|eexists [("--recenter", ["off"])], []; split; [reflexivity|not_there]]|]. exists (ZQ 4). split; [|reflexivity]. apply py_float_iff. vm_compute. reflexivity.
  - not_said.
  - not_said.
  - not_said.
  - not_said.
  - not_said.
  - not_said.
  - repeat constructor; cbn; intuition discriminate.
  - rewrite Hff. lia.
  - exact InterfaceFilesProps.ex_run.
  - intros j k Hj Hk. assert (j = 1 /\ k = 2)%Z as [-> ->] by lia. vm_compute. discriminate.
  - reflexivity.
  - rewrite Hf. exact InterfaceFilesProps.ex_reads.
  - change (String.eqb "off" "zero") with false. change (String.eqb "off" "com") with false. cbv iota. unfold ex_arrays.
    assert (exists a, Collect.collect_interfaces bM InterfaceFilesProps.file_maps (Some (ZQ 4)) (Some (ZQ 1)) 1 (None, None) None Collect.OtherOption = Ok a) as (a & ->); [|reflexivity].
    eexists. vm_compute. reflexivity.
  - exact O1.
  - exact O2.
  - exact O3.
  - exact O4.
  - exact O5.
  - InterfaceFilesProps.lit.
  - apply (writes_ext (arity interface_sample_cmd)); [intros f; exact (arity_flatten interface_sample_cmd f)|]. apply scan_writes; reflexivity.
  - not_there.
  - cbn. auto.
  - not_said.
  - left. exists "-x", "s.xvg". split; [split; [cbn; auto|eexists [], _; split; [reflexivity|not_there]]|reflexivity].
  - not_said.
  - not_said.
  - not_said.
  - not_said.
  - not_said.
  - not_said.
  - not_said.
  - left. exists "-b", "2". split; [split; [cbn; auto|eexists [("-x", ["s.xvg"])], _; split; [reflexivity|not_there]]|]. split; [|lia]. apply py_int_iff. vm_compute. reflexivity.
  - left. exists "-e", "2". split; [split; [cbn; auto|eexists [("-x", ["s.xvg"]); ("-b", ["2"])], []; split; [reflexivity|not_there]]|]. exists 2%Z. split; [|reflexivity]. split; [|lia]. apply py_int_iff. vm_compute. reflexivity.
  - not_said.
  - not_said.
  - lia.
  - lia.
  - discriminate.
  - intros k Hk. assert (k = 2)%Z as -> by lia. vm_compute. discriminate.
  - destruct curves as [|c [|]]; try discriminate Lc. destruct values as [|v [|]]; try discriminate Lv. exists d1, d2, c, v, text. split; [exact E1|]. split; [exact E2|].
    inversion HM; subst. split; [assumption|]. destruct (HC 0%nat c eq_refl) as (a & Ha & Hs & _). split; [exists a; split; [exact Ha|exact Hs]|]. split; [reflexivity|exact L].
Qed.

(** ** strata spreading collect, strata spreading view *)
Lemma unscaled c : SpreadingView.scale_series (ZQ 1) (ZQ 1) c = c.
Proof.
  unfold SpreadingView.scale_series. rewrite <- (map_id c) at 2. apply map_ext. intros [t r]. cbn [fst snd]. assert (forall x, x / ZQ 1 = x) as D; [|rewrite !D; reflexivity].
  intros x. change (ZQ 1) with 1. field. discriminate.
Qed.
Lemma finite_points name ts rs : length rs = length ts -> SpreadingFiles.finite_series (SpreadingFiles.mkSeries name (SpreadingFilesProps.points ts rs)) = Ok (name, combine ts rs).
Proof.
  intros H. unfold SpreadingFiles.finite_series, SpreadingFilesProps.points. cbn [SpreadingFiles.s_points SpreadingFiles.s_name].
  match goal with |- context [rmapM ?F _] => set (f := F) end. assert (rmapM f (combine (map Fin ts) (map Fin rs)) = Ok (combine ts rs)) as ->; [|reflexivity].
  revert rs H. induction ts as [|t ts IH]; intros [|r rs] H; try discriminate H; [reflexivity|]. cbn [map combine rmapM]. rewrite IH by (injection H as H; exact H). reflexivity.
Qed.
(** From the maps to the curves that are drawn.  If the frames show a droplet that moves less than half a box between frames, collecting its edges and viewing the file draws three curves, of the radius and of the two
    edges; the first one has a point for each frame with edges, whose time counts these frames from [t0] in steps of [dt] and whose radius is half the width of the droplet, both to three decimals, wherever in the box it is. *)
Theorem C96_collect_view : forall lib w dashed d argv1 occs1 base fl floor out verbose dt t0 cutoff bins radius b e x n frames box traj argv2 occs2 fig show loglog xlim ylim title xlabel ylabel,
  (* strata spreading collect *)
  writes (takes spreading_collect_options) argv1 occs1 [base; fl] -> not_given occs1 help -> number_text fl floor ->
  chosen occs1 ["-o"; "--output"] as_is "spread.xvg" out -> switched occs1 ["--nooutput"] [] false false -> switched occs1 ["-v"; "--verbose"] [] false verbose ->
  chosen occs1 ["-dt"; "--delta_t"] number_text (ZQ 1) dt -> chosen occs1 ["-t0"; "--time_init"] number_text (ZQ 0) t0 ->
  chosen occs1 ["-co"; "--cutoff"] (some_of number_text) None cutoff ->
  chosen occs1 ["-cb"; "--cutoff_bins"] int_text 1%Z bins -> chosen occs1 ["-cr"; "--cutoff_radius"] number_text (ZQ 1) radius ->
  chosen occs1 ["-b"; "--begin"] (int_from 0) 1%Z b -> chosen occs1 ["-e"; "--end"] (some_of (int_from 0)) None e -> chosen occs1 ["--ext"] as_is ".dat" x ->
  (* the frames and the droplet they show *)
  let name i := Utils.fname base (b + Z.of_nat i) x in
  let o := {| SpreadingFiles.so_cutoff := cutoff; SpreadingFiles.so_radius := radius; SpreadingFiles.so_bins := bins; SpreadingFiles.so_floor := Some floor |} in
  wf d -> (n < w_ffuel w)%nat -> FilesSpec.run_length (fun z => match e with Some l => (z <= l)%Z | None => True end /\ Utils.exists_path d (Formats.os_path (Utils.fname base z x)) = true) b n ->
  (forall i, (i <= n)%nat -> Formats.os_path (name i) <> Formats.os_path out) -> (forall j, Formats.os_path (name n) <> Utils.backup_path (Formats.os_path out) j) ->
  length frames = n -> (forall i f, nth_error frames i = Some f -> SpreadingFilesProps.shows_frame (w_fuel w) o d (name i) f) ->
  0 < box -> SpreadingSpec.trajectory box traj -> SpreadingProps.observes box frames traj -> (2 <= length traj)%nat ->
  one_line (InterfaceFiles.e_date (w_env w)) -> one_line (InterfaceFiles.e_version (w_env w)) -> one_line (w_real w base) -> (forall v, one_line (w_repr w v)) -> one_line (txt base) -> one_line (txt x) ->
  (* strata spreading view *)
  writes (takes spreading_view_options) argv2 occs2 [out] -> not_given occs2 help ->
  chosen occs2 ["-t"; "--tau"] number_text (ZQ 1) (ZQ 1) -> chosen occs2 ["-r"; "--radius"] number_text (ZQ 1) (ZQ 1) ->
  chosen occs2 ["-rs"; "--sync_radius"] (some_of number_text) None None -> chosen occs2 ["-x"; "--save_xvg"] (some_of as_is) None None ->
  chosen occs2 ["-o"; "--save_fig"] (some_of as_is) None fig -> switched occs2 ["--show"] ["--noshow"] true show -> switched occs2 ["--loglog"] [] false loglog ->
  chosen2 occs2 ["--xlim"] number_or_none (None, None) xlim -> chosen2 occs2 ["--ylim"] number_or_none (None, None) ylim ->
  chosen occs2 ["--title"] as_is "Droplet spreading" title -> chosen occs2 ["--xlabel"] as_is "Time (ps)" xlabel -> chosen occs2 ["--ylabel"] as_is "Radius (nm)" ylabel ->
  show = true \/ fig <> None ->
  exists d1 printed ts rs ls xs g err, (verbose = false -> printed = []) /\
    main w dashed d ("spreading" :: "collect" :: argv1) = Some (Done d1 printed None) /\
    draw_spreading lib w dashed d1 ("spreading" :: "view" :: argv2) = Some (d1, Some g, err) /\
    CurveRunProps.drawn lib (CurveRunProps.mkLook title xlabel ylabel xlim ylim (Some "tight") loglog false fig show)
      [(None, CurveFigureProps.points (combine ts rs)); (None, CurveFigureProps.points (combine ts ls)); (None, CurveFigureProps.points (combine ts xs))] g err /\
    length ts = length traj /\ length rs = length traj /\ length ls = length traj /\ length xs = length traj /\
    forall k p, nth_error traj k = Some p -> exists t r, nth_error ts k = Some t /\ nth_error rs k = Some r /\
      TableSpec.nearest_decimal 3 (t0 + NQ k * dt) t /\ TableSpec.nearest_decimal 3 (Q2Qc (1 # 2) * (snd p - fst p)) r.
Proof.
  intros lib w dashed d argv1 occs1 base fl floor out verbose dt t0 cutoff bins radius b e x n frames box traj argv2 occs2 fig show loglog xlim ylim title xlabel ylabel
    W1 H1 Hfl Hout Hno Hverb Hdt Ht0 Hco Hcb Hcr Hb He Hx name o Hw Hf Hr Hn Hbk HL HF Hbox HT HO H2 O1 O2 O3 O4 O5 O6 W2 H2' Htau HR Hsync Hsave Hfig Hshow Hlog Hxl Hyl Hti Hxla Hyla HD.
  pose proof (C78_spreading_collect w dashed d argv1 occs1 base fl floor out false verbose dt t0 cutoff bins radius b e x W1 H1 Hfl Hout Hno Hverb Hdt Ht0 Hco Hcb Hcr Hb He Hx) as E1. cbv zeta in E1.
  match type of E1 with context [SpreadingFiles.spreading_header ?i] => set (inf := i) in E1 end. set (hdr := SpreadingFiles.spreading_header inf) in E1. fold o in E1.
  set (fo := {| Utils.o_begin := Some b; Utils.o_end := _; Utils.o_ext := Some x; Utils.o_outext := None |}) in E1.
  assert (Forall comment_line hdr) as HH. { unfold hdr, inf. apply SpreadingFilesProps.C74_header; cbn; auto. }
  destruct (SpreadingFilesProps.C73_run (w_ffuel w) (w_fuel w) hdr o dt t0 d false base out fo n frames Hw Hf) as (d1 & ER & Wd1 & L1 & _).
  { unfold fo. cbn [Utils.o_end Utils.o_ext Utils.o_begin]. destruct e; exact Hr. }
  { exact Hn. }
  { exact Hbk. }
  { exact HL. }
  { exact HF. }
  destruct (SpreadingFilesProps.C74_true_radii (w_ffuel w) (w_fuel w) hdr o dt t0 d false base out fo n frames box traj Hw Hf) as (d1' & ts & rs & ls & xs & ER' & ED & LT & LR & LL & LX & HK).
  { unfold fo. cbn [Utils.o_end Utils.o_ext Utils.o_begin]. destruct e; exact Hr. }
  { exact Hn. }
  { exact Hbk. }
  { exact HL. }
  { exact HF. }
  { exact HH. }
  { intros i Hi. unfold fo. cbn [Utils.o_begin Utils.o_ext]. apply one_line_name; assumption. }
  { exact Hbox. }
  { exact HT. }
  { exact HO. }
  { exact H2. }
  change (if false then None else Some out) with (Some out) in E1.
  rewrite ER in ER', E1. cbn [fst] in ER'. subst d1'.
  destruct (CurveRunProps.C95_spreading_view lib w dashed d1 argv2 occs2 [out] (ZQ 1) (ZQ 1) None fig None show loglog xlim ylim title xlabel ylabel
    [SpreadingFiles.mkSeries (out ++ ".1") (SpreadingFilesProps.points ts rs); SpreadingFiles.mkSeries (out ++ ".2") (SpreadingFilesProps.points ts ls); SpreadingFiles.mkSeries (out ++ ".3") (SpreadingFilesProps.points ts xs)] []
    [((out ++ ".1")%string, combine ts rs); ((out ++ ".2")%string, combine ts ls); ((out ++ ".3")%string, combine ts xs)] [combine ts rs; combine ts ls; combine ts xs]) as (d2 & f & err & E2 & EV & HY & _); try assumption.
  { intros f [<- | []]. unfold Utils.exists_path. rewrite L1. reflexivity. }
  { cbn [rmapM]. rewrite !finite_points by congruence. reflexivity. }
  { unfold SpreadingView.combine_spreading_data, SpreadingView.scale_spreading_data. cbn [map snd length SpreadingView.bc_length filter Nat.eqb negb forallb andb rbind seq]. unfold SpreadingView.bc_nth. cbn [length Nat.eqb nth]. rewrite !unscaled. reflexivity. }
  pose proof (SpreadingRunProps.C75_nothing_saved _ _ _ _ _ _ _ _ _ _ (or_introl eq_refl) EV). subst d2.
  destruct HY as (g & -> & D); [destruct HD as [-> | HD]; [left; reflexivity|right; split; [exact HD|discriminate]]|].
  match type of E1 with _ = Some (Done _ ?p _) => exists d1, p, ts, rs, ls, xs, g, err end. split; [intros ->; reflexivity|]. split; [exact E1|]. split; [exact E2|]. split; [exact D|]. auto 10.
Qed.
Print Assumptions C96_collect_view.

Definition ex_opts : SpreadingFiles.sopts := SpreadingFiles.mkSopts (Some (ZQ 4)) (ZQ 1) 1 (Some (ZQ 0)).
Definition ex_frames : list Spreading.frame := [Spreading.mkFrame "map_00001.dat" (ZQ 6) (Some (ZQ 3, ZQ 4)); Spreading.mkFrame "map_00002.dat" (ZQ 6) (Some (ZQ 4, ZQ 5))].
Definition ex_traj : list (Qc * Qc) := [(ZQ 3, ZQ 4); (ZQ 4, ZQ 5)].
Lemma ex_shows : forall i f, nth_error ex_frames i = Some f -> SpreadingFilesProps.shows_frame 60 ex_opts InterfaceFilesProps.ex_disk (Utils.fname "map_" (1 + Z.of_nat i) ".dat") f.
Proof.
  assert (exists b fi, InterfaceFiles.flow_file 60 (Average.content InterfaceFilesProps.ex_disk "map_00001.dat") = Ok (b, fi) /\
    Spreading.get_spreading_edges bM b fi (Some (ZQ 4)) (Some (ZQ 1)) 1 true (Some (ZQ 0)) = Ok (Some (ZQ 3, ZQ 4)) /\ Flow.size fi = Some (ZQ 6, ZQ 2)) as A.
  { eexists. eexists. split; [vm_compute; reflexivity|]. split; vm_compute; reflexivity. }
  assert (exists b fi, InterfaceFiles.flow_file 60 (Average.content InterfaceFilesProps.ex_disk "map_00002.dat") = Ok (b, fi) /\
    Spreading.get_spreading_edges bM b fi (Some (ZQ 4)) (Some (ZQ 1)) 1 true (Some (ZQ 0)) = Ok (Some (ZQ 4, ZQ 5)) /\ Flow.size fi = Some (ZQ 6, ZQ 2)) as B.
  { eexists. eexists. split; [vm_compute; reflexivity|]. split; vm_compute; reflexivity. }
  intros [|[|i]] f H; cbn in H; [| |destruct i; discriminate]; injection H as <-; (split; [reflexivity|]).
  - destruct A as (b & fi & A1 & A2 & A3). exists b, fi. split; [exact A1|]. split; [exact A2|]. exists (ZQ 2). exact A3.
  - destruct B as (b & fi & A1 & A2 & A3). exists b, fi. split; [exact A1|]. split; [exact A2|]. exists (ZQ 2). exact A3.
Qed.
Example C96_view_ex : forall lib w, w_ffuel w = 10%nat -> w_fuel w = 60%nat -> one_line (InterfaceFiles.e_date (w_env w)) -> one_line (InterfaceFiles.e_version (w_env w)) -> one_line (w_real w "map_") -> (forall v, one_line (w_repr w v)) ->
  exists d1 ts rs ls xs g err, main w true InterfaceFilesProps.ex_disk ["spreading"; "collect"; "map_"; "0"; "-co"; "4"] = Some (Done d1 [] None) /\
    draw_spreading lib w true d1 ["spreading"; "view"; "spread.xvg"] = Some (d1, Some g, err) /\
    fst g = Some [(None, CurveFigureProps.points (combine ts rs)); (None, CurveFigureProps.points (combine ts ls)); (None, CurveFigureProps.points (combine ts xs))] /\
    exists t0 t1 r0 r1, ts = [t0; t1] /\ rs = [r0; r1] /\ TableSpec.nearest_decimal 3 (ZQ 0 + NQ 1 * ZQ 1) t1 /\ TableSpec.nearest_decimal 3 (Q2Qc (1 # 2) * (ZQ 5 - ZQ 4)) r1.
Proof.
  intros lib w Hff Hf O1 O2 O3 O4.
  destruct (C96_collect_view lib w true InterfaceFilesProps.ex_disk ["map_"; "0"; "-co"; "4"] [("-co", ["4"])] "map_" "0" (ZQ 0) "spread.xvg" false (ZQ 1) (ZQ 0) (Some (ZQ 4)) 1 (ZQ 1) 1 None ".dat" 2 ex_frames (ZQ 6) ex_traj
    ["spread.xvg"] [] None true false (None, None) (None, None) "Droplet spreading" "Time (ps)" "Radius (nm)") as (d1 & printed & ts & rs & ls & xs & g & err & HPr & E1 & E2 & D & LT & LR & _ & _ & HK).
  - apply (writes_ext (arity spreading_collect_cmd)); [intros f; exact (arity_flatten spreading_collect_cmd f)|]. apply scan_writes; reflexivity.
  - not_there.
  - apply py_float_iff. vm_compute. reflexivity.
  - not_said.
  - not_said.
  - not_said.
  - not_said.
  - not_said.
  - left. exists "-co", "4". split; [split; [cbn; auto|eexists [], _; split; [reflexivity|not_there]]|]. exists (ZQ 4). split; [|reflexivity]. apply py_float_iff. vm_compute. reflexivity.
  - not_said.
  - not_said.
  - not_said.
  - not_said.
  - not_said.
  - repeat constructor; cbn; intuition discriminate.
  - rewrite Hff. lia.
  - exact InterfaceFilesProps.ex_run.
  - intros i Hi. assert (i = 0 \/ i = 1 \/ i = 2)%nat as [-> | [-> | ->]] by lia; vm_compute; discriminate.
  - intros j E. vm_compute in E. discriminate.
  - reflexivity.
  - rewrite Hf. exact ex_shows.
  - apply qlt_true. vm_compute. reflexivity.
  - split; [|split; [|exact I]].
    + repeat constructor; try (apply qle_true; vm_compute; reflexivity); apply qlt_true; vm_compute; reflexivity.
    + split; apply qlt_true; vm_compute; reflexivity.
  - unfold SpreadingProps.observes, ex_frames, ex_traj. cbn [filter Spreading.f_edges]. constructor; [|constructor; [|constructor]]; (split; [reflexivity|]).
    + exists (ZQ 3), (ZQ 4). split; [reflexivity|]. split; (split; [apply qle_true; reflexivity|split; [apply qlt_true; reflexivity|exists 0%Z; apply Qc_is_canon; reflexivity]]).
    + exists (ZQ 4), (ZQ 5). split; [reflexivity|]. split; (split; [apply qle_true; reflexivity|split; [apply qlt_true; reflexivity|exists 0%Z; apply Qc_is_canon; reflexivity]]).
  - cbn. lia.
  - exact O1.
  - exact O2.
  - exact O3.
  - exact O4.
  - InterfaceFilesProps.lit.
  - InterfaceFilesProps.lit.
  - apply (writes_ext (arity spreading_view_cmd)); [intros f; exact (arity_flatten spreading_view_cmd f)|]. apply scan_writes; reflexivity.
  - not_there.
  - not_said.
  - not_said.
  - not_said.
  - not_said.
  - not_said.
  - not_said.
  - not_said.
  - not_said.
  - not_said.
  - not_said.
  - not_said.
  - not_said.
  - left. reflexivity.
  - rewrite (HPr eq_refl) in E1.
    exists d1, ts, rs, ls, xs, g, err. split; [exact E1|]. split; [exact E2|]. destruct D as [D1 _ _ _]. split; [exact D1|].
    destruct ts as [|t0 [|t1 [|]]]; try discriminate LT. destruct rs as [|r0 [|r1 [|]]]; try discriminate LR. exists t0, t1, r0, r1. split; [reflexivity|]. split; [reflexivity|].
    destruct (HK 1%nat _ eq_refl) as (t & r & Ht & Hr & N1 & N2). injection Ht as <-. injection Hr as <-. split; [exact N1|exact N2].
Qed.
