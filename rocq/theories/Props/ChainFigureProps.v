(** C97: figures of collected interfaces. *)
From Coq Require Import String Ascii Reals Permutation Lia.
From Verif.Base Require Import QcX QcR Res Np Bytes.
From Verif.Model Require Import Text PyText Click Cli CliRuns.
From Verif.Spec Require Import CliSpec CliReads PolygonSpec.
From Verif.Model Require Import Bins Table.
From Verif.Proofs Require Import TextP TableP PyTextP ClickP CliP CliTextP UtilsDisk.
From Verif.Props Require Import CliProps CliTextProps CliRunsProps ChainProps.
From Verif.Model Require Utils Formats Collect InterfaceFiles Interface Average InterfaceView InterfaceViewFiles.
From Verif.Model Require Import Figure CliDraw CurveFigures CurveRuns.
From Verif.Spec Require FilesSpec DiskSpec AverageSpec.
From Verif.Props Require InterfaceFilesProps CollectProps InterfaceViewProps InterfaceViewRunProps CurveRunProps CurveFigureProps FigureProps.
Import DiskSpec(wf, contents).
Import InterfaceFilesProps(one_line, stored).
Local Open Scope string_scope.
Local Open Scope list_scope.
Local Notation length := List.length.

(** The layers of an array: the points of its left edge are listed from below and each is more than a thousandth above the one before. *)
Definition apart (a : list (Qc * Qc)) : Prop :=
  forall i j, (i < j)%nat -> (2 * j < length a)%nat -> snd (nth i a (0, 0)) + Q2Qc (1 # 1000) < snd (nth j a (0, 0)).
(** The columns of points. *)
Definition columns (a : list (Qc * Qc)) : InterfaceViewProps.interface := (map fst a, map snd a).

Lemma rounded_nth a i : (i < length a)%nat -> nth i (rounded a) (0, 0) = (round_dec 3 (fst (nth i a (0, 0))), round_dec 3 (snd (nth i a (0, 0)))).
Proof.
  intros H. unfold rounded. rewrite (nth_indep _ (0, 0) ((fun p : Qc * Qc => (round_dec 3 (fst p), round_dec 3 (snd p))) (0, 0))) by (rewrite map_length; exact H).
  exact (map_nth (fun p : Qc * Qc => (round_dec 3 (fst p), round_dec 3 (snd p))) a (0, 0) i).
Qed.
Lemma rounded_apart x y : x + Q2Qc (1 # 1000) < y -> round_dec 3 x < round_dec 3 y.
Proof.
  intros H. pose proof (round_dec_near 3 x) as A. pose proof (round_dec_near 3 y) as B.
  assert (Q2Qc (1 # 2) / ZQ (10 ^ Z.of_nat 3) = Q2Qc (1 # 2000)) as E by (apply Qc_is_canon; reflexivity). rewrite E in A, B.
  set (u := round_dec 3 x) in *. set (v := round_dec 3 y) in *. clearbody u v.
  assert (Q2Qc (1 # 1000) = Q2Qc (1 # 2000) + Q2Qc (1 # 2000)) as EE by (apply Qc_is_canon; reflexivity). rewrite EE in H. set (h := Q2Qc (1 # 2000)) in *. clearbody h.
  apply qabs_le in A. apply qabs_le in B. destruct A as [A1 A2], B as [B1 B2]. qlra'.
Qed.
Lemma rounded_rises a : apart a -> forall i j, (i < j)%nat -> (2 * j < length a)%nat -> snd (nth i (rounded a) (0, 0)) < snd (nth j (rounded a) (0, 0)).
Proof. intros H i j Hij Hj. rewrite !rounded_nth by lia. cbn [snd]. apply rounded_apart. exact (H i j Hij Hj). Qed.
Lemma nth_firstn_lt {A} (l : list A) n i d : (i < n)%nat -> nth i (firstn n l) d = nth i l d.
Proof. revert n i; induction l as [|x l IH]; intros [|n] [|i] H; try lia; cbn; try reflexivity. apply IH. lia. Qed.
Lemma nth_skipn {A} (l : list A) n i d : nth i (skipn n l) d = nth (n + i) l d.
Proof. revert n; induction l as [|x l IH]; intros [|n]; cbn; try reflexivity; [destruct i; reflexivity|apply IH]. Qed.
Lemma NoDup_nth_lt (l : list Qc) : (forall i j, (i < j)%nat -> (j < length l)%nat -> nth i l 0 <> nth j l 0) -> NoDup l.
Proof.
  intros H. apply (NoDup_nth l 0). intros i j Hi Hj E. destruct (Nat.lt_trichotomy i j) as [L | [L | L]]; [|exact L|].
  - destruct (H i j L Hj E).
  - destruct (H j i L Hi (eq_sym E)).
Qed.
Lemma columns_well_formed a : two_edges a -> apart a -> InterfaceViewProps.well_formed (columns (rounded a)).
Proof.
  intros HT HA. pose proof (rounded_rises a HA) as HR. pose proof (rounded_two_edges a HT) as (k & L & HS). assert (length a = (k + k)%nat) as La by (rewrite <- L; unfold rounded; rewrite map_length; reflexivity).
  unfold InterfaceViewProps.well_formed, InterfaceViewProps.split_at, columns. cbn [fst snd]. rewrite !map_length, L. assert (Nat.div (k + k) 2 = k) as -> by (replace (k + k)%nat with (k * 2)%nat by lia; apply Nat.div_mul; lia).
  assert (forall i, nth i (map snd (rounded a)) 0 = snd (nth i (rounded a) (0, 0))) as N by (intros i; exact (map_nth snd (rounded a) (0, 0) i)).
  split; [reflexivity|]. split; apply NoDup_nth_lt; intros i j Hij Hj.
  - rewrite firstn_length, map_length, L in Hj. rewrite !nth_firstn_lt by lia. rewrite !N. apply Qclt_not_eq. apply HR; lia.
  - rewrite skipn_length, map_length, L in Hj. rewrite !nth_skipn, !N. intros E. specialize (HR (k - 1 - j)%nat (k - 1 - i)%nat ltac:(lia) ltac:(lia)).
    rewrite (HS (k - 1 - j)%nat), (HS (k - 1 - i)%nat) in HR by lia. replace (k + k - 1 - (k - 1 - j))%nat with (k + j)%nat in HR by lia. replace (k + k - 1 - (k - 1 - i))%nat with (k + i)%nat in HR by lia.
    rewrite E in HR. exact (Qclt_not_eq _ _ HR eq_refl).
Qed.

(** ** strata interface collect, strata interface view *)
(** What the first command leaves: the file of every collected interface. *)
Lemma collected_files w dashed d argv1 occs1 base output rec cutoff bins radius ylim b e x n maps arrays :
  writes (takes interface_collect_options) argv1 occs1 [base; output] -> not_given occs1 help -> chosen occs1 ["--recenter"] (one_of ["off"; "com"; "zero"]) "zero" rec ->
  chosen occs1 ["-co"; "--cutoff"] (some_of number_text) None cutoff -> chosen occs1 ["-cb"; "--cutoff_bins"] int_text 1%Z bins -> chosen occs1 ["-cr"; "--cutoff_radius"] number_text (ZQ 1) radius ->
  chosen2 occs1 ["--ylim"] number_or_none (None, None) ylim ->
  chosen occs1 ["-b"; "--begin"] (int_from 0) 1%Z b -> chosen occs1 ["-e"; "--end"] (some_of (int_from 0)) None e -> chosen occs1 ["--ext"] as_is ".dat" x ->
  wf d -> (n < w_ffuel w)%nat -> FilesSpec.run_length (fun z => match e with Some l => (z <= l)%Z | None => True end /\ Utils.exists_path d (Formats.os_path (Utils.fname base z x)) = true) b n ->
  (forall j k, (b <= j < k)%Z -> (k < b + Z.of_nat n)%Z -> Formats.os_path (Utils.fname output j ".xvg") <> Formats.os_path (Utils.fname base k x)) ->
  length maps = n -> (forall i mp, nth_error maps i = Some mp -> InterfaceFiles.flow_file (w_fuel w) (Average.content d (Utils.fname base (b + Z.of_nat i) x)) = Ok mp) ->
  Collect.collect_interfaces bM maps cutoff (Some radius) bins ylim None (if String.eqb rec "zero" then Collect.Zero else if String.eqb rec "com" then Collect.Com else Collect.OtherOption) = Ok arrays ->
  one_line (InterfaceFiles.e_module (w_env w)) -> one_line (InterfaceFiles.e_date (w_env w)) -> one_line (InterfaceFiles.e_version (w_env w)) -> one_line (InterfaceFiles.e_cwd (w_env w)) ->
  (forall v, one_line (w_repr w v)) -> one_line (txt output) ->
  exists d1, main w dashed d ("interface" :: "collect" :: argv1) = Some (Done d1 [] (Some TypeErr)) /\ wf d1 /\ length arrays = n /\
    (forall i a, nth_error arrays i = Some a -> Table.read_columns (Average.content d1 (Utils.fname output (b + Z.of_nat i) ".xvg")) = Ok (columns (rounded a))) /\
    exists written, length written = n /\ Permutation (contents d1) (contents d ++ written).
Proof.
  intros W1 H1 Hrec Hco Hcb Hcr Hyl Hb He Hx Hw Hf Hr Hov HL HR HC O1 O2 O3 O4 O5 O6.
  pose proof (C78_interface_collect w dashed d argv1 occs1 base output rec cutoff bins radius ylim b e x W1 H1 Hrec Hco Hcb Hcr Hyl Hb He Hx) as E1. cbv zeta in E1.
  set (hdr := fun out : string => InterfaceFiles.interface_header (w_env w) [txt out] _) in E1. set (o := if String.eqb rec "zero" then _ else _) in *.
  set (fo := {| Utils.o_begin := Some b; Utils.o_end := _; Utils.o_ext := Some x; Utils.o_outext := None |}) in E1.
  assert (forall k, Forall comment_line (hdr (Utils.fname output k ".xvg"))) as HH.
  { intros k. unfold hdr. apply InterfaceFilesProps.C68_header; [exact O1|exact O2|exact O3|exact O4|constructor; [apply one_line_name; [exact O6|InterfaceFilesProps.lit]|constructor]|]. auto. }
  pose proof HC as HC'. rewrite InterfaceFilesP.with_state_fst in HC. destruct (InterfaceFilesP.with_state cutoff (Some radius) bins ylim o maps None) as [[arrays' st]|] eqn:ES; [|discriminate]. cbn [rmap rbind fst] in HC.
  assert (arrays' = arrays) as -> by (injection HC as ->; reflexivity).
  destruct (InterfaceFilesP.collect_frames (w_ffuel w) (w_fuel w) hdr cutoff (Some radius) bins ylim o d base output fo n n maps arrays st Hw) as (d1 & EC & Wd1 & R1 & K1 & written & LW & PW).
  { unfold fo. cbn [Utils.o_outext]. cbn [FormatsP.no_slash]. repeat split; discriminate. }
  { exact Hf. }
  { unfold fo. cbn [Utils.o_end Utils.o_ext Utils.o_begin]. destruct e; exact Hr. }
  { exact Hov. }
  { lia. }
  { exact HL. }
  { exact HR. }
  { exact ES. }
  rewrite Nat.sub_diag in EC. cbn [FilesSpec.numbers map InterfaceFiles.collect_loop] in EC.
  rewrite EC in E1. cbn [fst snd] in E1. pose proof (collected_two_edges _ _ _ _ _ _ _ _ HC') as HT.
  exists d1. split; [exact E1|]. split; [exact Wd1|]. split; [rewrite (InterfaceFilesP.with_state_length _ _ _ _ _ _ _ _ _ ES); exact HL|]. split; [|exists written; auto].
  intros i a Ha. pose proof (R1 i a Ha) as R. unfold fo in R. cbn [Utils.o_begin Utils.o_outext] in R.
  assert (Average.content d1 (Utils.fname output (b + Z.of_nat i) ".xvg") = Some (InterfaceFiles.interface_text (hdr (Utils.fname output (b + Z.of_nat i) ".xvg")) a)) as ->
    by (unfold Average.content; rewrite R; cbn [option_map]; rewrite InterfaceFilesP.bytes_string; reflexivity).
  unfold InterfaceFiles.interface_text. rewrite (TableP.two_columns_read _ a (HH _)) by (apply HT; exact (nth_error_In _ _ Ha)).
  unfold columns, rounded. rewrite !map_map. reflexivity.
Qed.

(** Interfaces with distinct heights have an average. *)
Lemma has_average l : l <> [] -> (forall i, In i l -> InterfaceViewProps.well_formed i) -> exists s, InterfaceViewRunProps.is_average l s.
Proof.
  intros Hne HW. destruct (InterfaceViewProps.C38_common_layers l Hne HW) as (L & R & _ & H1 & H2 & H3 & H4). exists (L ++ rev R), L, R. auto.
Qed.
Lemma window_map {A} (l : list A) n M d : (n + M <= length l)%nat -> firstn M (skipn n l) = map (fun k => nth (n + k) l d) (seq 0 M).
Proof.
  revert n l; induction M as [|M IH]; intros n l H; [reflexivity|]. cbn [seq map]. rewrite <- seq_shift, map_map. rewrite (map_ext _ (fun k => nth (S n + k) l d)) by (intros k; f_equal; lia).
  rewrite <- IH by lia. clear IH. revert l H; induction n as [|n IH]; intros [|x l] H; cbn in H; try lia; [cbn; reflexivity|]. cbn [skipn Nat.add nth]. apply IH. cbn. lia.
Qed.
Lemma in_skipn_in {A} (l : list A) n x : In x (skipn n l) -> In x l.
Proof. intros H. rewrite <- (firstn_skipn n l). apply in_or_app. right. exact H. Qed.
Lemma in_firstn_in {A} (l : list A) n x : In x (firstn n l) -> In x l.
Proof. intros H. rewrite <- (firstn_skipn n l). apply in_or_app. left. exact H. Qed.
Lemma numbers_seq b n : FilesSpec.numbers b n = map (fun k => (b + Z.of_nat k)%Z) (seq 0 n).
Proof.
  revert b; induction n as [|n IH]; intros b; [reflexivity|]. cbn [FilesSpec.numbers seq map]. rewrite Z.add_0_r. f_equal. rewrite IH, <- seq_shift, map_map. apply map_ext. intros k. lia.
Qed.

Lemma rounded_stored l : Forall2 (fun a c => stored a (map fst c) (map snd c)) l (map rounded l).
Proof. induction l as [|a l IH]; cbn [map]; constructor; [|exact IH]. unfold rounded. rewrite !map_map. cbn [fst snd]. apply InterfaceFilesProps.stored_round. Qed.
Lemma collect_view : forall lib w dashed d argv1 occs1 base output rec cutoff bins radius ylim b e x n maps arrays argv2 occs2 M fig show xlim ylim2 title xlabel ylabel b2 m extfig, (0 < M)%nat ->
  (* strata interface collect *)
  writes (takes interface_collect_options) argv1 occs1 [base; output] -> not_given occs1 help -> chosen occs1 ["--recenter"] (one_of ["off"; "com"; "zero"]) "zero" rec ->
  chosen occs1 ["-co"; "--cutoff"] (some_of number_text) None cutoff -> chosen occs1 ["-cb"; "--cutoff_bins"] int_text 1%Z bins -> chosen occs1 ["-cr"; "--cutoff_radius"] number_text (ZQ 1) radius ->
  chosen2 occs1 ["--ylim"] number_or_none (None, None) ylim ->
  chosen occs1 ["-b"; "--begin"] (int_from 0) 1%Z b -> chosen occs1 ["-e"; "--end"] (some_of (int_from 0)) None e -> chosen occs1 ["--ext"] as_is ".dat" x ->
  (* the maps and their interfaces *)
  wf d -> (n < w_ffuel w)%nat -> FilesSpec.run_length (fun z => match e with Some l => (z <= l)%Z | None => True end /\ Utils.exists_path d (Formats.os_path (Utils.fname base z x)) = true) b n ->
  (forall j k, (b <= j < k)%Z -> (k < b + Z.of_nat n)%Z -> Formats.os_path (Utils.fname output j ".xvg") <> Formats.os_path (Utils.fname base k x)) ->
  length maps = n -> (forall i mp, nth_error maps i = Some mp -> InterfaceFiles.flow_file (w_fuel w) (Average.content d (Utils.fname base (b + Z.of_nat i) x)) = Ok mp) ->
  Collect.collect_interfaces bM maps cutoff (Some radius) bins ylim None (if String.eqb rec "zero" then Collect.Zero else if String.eqb rec "com" then Collect.Com else Collect.OtherOption) = Ok arrays ->
  (forall a, In a arrays -> apart a) ->
  one_line (InterfaceFiles.e_module (w_env w)) -> one_line (InterfaceFiles.e_date (w_env w)) -> one_line (InterfaceFiles.e_version (w_env w)) -> one_line (InterfaceFiles.e_cwd (w_env w)) ->
  (forall v, one_line (w_repr w v)) -> one_line (txt output) ->
  (* strata interface view *)
  writes (takes interface_view_options) argv2 occs2 [output] -> not_given occs2 help -> chosen occs2 ["-av"; "--average"] (int_from 1) 1%Z (Z.of_nat M) ->
  chosen occs2 ["-o"; "--save_fig"] (some_of as_is) None fig -> chosen occs2 ["-x"; "--save_xvg"] as_is "" "" ->
  switched occs2 ["--show"] ["--noshow"] true show -> chosen2 occs2 ["--xlim"] number_or_none (None, None) xlim -> chosen2 occs2 ["--ylim"] number_or_none (None, None) ylim2 ->
  chosen occs2 ["--title"] as_is "Droplet interface" title -> chosen occs2 ["--xlabel"] as_is "x (nm)" xlabel -> chosen occs2 ["--ylabel"] as_is "y (nm)" ylabel ->
  chosen occs2 ["-b"; "--begin"] (int_from 0) 1%Z b2 -> chosen occs2 ["-e"; "--end"] (some_of (int_from 0)) None (Some (b2 + Z.of_nat m - 1)%Z) -> chosen occs2 ["--ext"] as_is ".xvg" ".xvg" ->
  chosen occs2 ["--extfig"] as_is ".png" extfig ->
  (b <= b2)%Z -> (b2 + Z.of_nat m <= b + Z.of_nat n)%Z -> (m + 1 < w_ffuel w)%nat ->
  exists d1 saved averages K fs err, main w dashed d ("interface" :: "collect" :: argv1) = Some (Done d1 [] (Some TypeErr)) /\
    saved = map rounded arrays /\
    length averages = Nat.div m M /\
    (forall i s, nth_error averages i = Some s -> InterfaceViewRunProps.is_average (map columns (firstn M (skipn (Z.to_nat (b2 - b) + i * M) saved))) s) /\
    (forall i, AverageSpec.bundle_output b2 M false i (K + Z.of_nat i)) /\
    let gs := InterfaceViewRunProps.figures fig extfig K (map Some averages) in
    let l := fun name => CurveRunProps.mkLook title xlabel ylabel xlim ylim2 (Some "scaled") false false name show in
    match err with
    | None => (exists r, draw_interfaces lib w dashed d1 ("interface" :: "view" :: argv2) = Some (fs, Ok r)) /\ Forall2 (fun g f => CurveRunProps.interface_drawn lib l g f None) gs fs
    | Some err => draw_interfaces lib w dashed d1 ("interface" :: "view" :: argv2) = Some (fs, Err err) /\ ~ (forall c, ViewRunProps.lib_ok lib c) /\
        exists done g rest fs' f, gs = done ++ g :: rest /\ fs = fs' ++ [f] /\ Forall2 (fun g f => CurveRunProps.interface_drawn lib l g f None) done fs' /\ CurveRunProps.interface_drawn lib l g f (Some err)
    end.
Proof.
  intros lib w dashed d argv1 occs1 base output rec cutoff bins radius ylim b e x n maps arrays argv2 occs2 M fig show xlim ylim2 title xlabel ylabel b2 m extfig HM
    W1 H1 Hrec Hco Hcb Hcr Hyl Hb He Hx Hw Hf Hr Hov HL HR HC HA O1 O2 O3 O4 O5 O6 W2 H2 Hav Hfig Hsave Hshow Hxl Hyl2 Hti Hxla Hyla Hb2 He2 Hx2 Hef Hlo Hhi Hm.
  destruct (collected_files w dashed d argv1 occs1 base output rec cutoff bins radius ylim b e x n maps arrays W1 H1 Hrec Hco Hcb Hcr Hyl Hb He Hx Hw Hf Hr Hov HL HR HC O1 O2 O3 O4 O5 O6) as (d1 & E1 & Wd1 & LA & HF & _).
  pose proof (collected_two_edges _ _ _ _ _ _ _ _ HC) as HT.
  set (s0 := Z.to_nat (b2 - b)). assert (Z.of_nat s0 = b2 - b)%Z as Hs0 by (unfold s0; lia).
  set (saved := map rounded arrays). set (group := fun i => map columns (firstn M (skipn (s0 + i * M) saved))).
  assert (length saved = n) as LS by (unfold saved; rewrite map_length; exact LA).
  assert (forall c, In c saved -> InterfaceViewProps.well_formed (columns c)) as HW.
  { intros c Hc. unfold saved in Hc. apply in_map_iff in Hc as (a & <- & Ha). apply columns_well_formed; [apply HT; exact Ha|apply HA; exact Ha]. }
  assert (forall i j, In j (group i) -> InterfaceViewProps.well_formed j) as HG.
  { intros i j Hj. unfold group in Hj. apply in_map_iff in Hj as (c & <- & Hc). apply HW. apply (in_skipn_in saved (s0 + i * M)). apply (in_firstn_in _ M). exact Hc. }
  assert (forall i, (i < Nat.div m M)%nat -> (i * M + M <= m)%nat) as HiM.
  { intros i Hi. pose proof (Nat.mul_div_le m M ltac:(lia)). nia. }
  assert (forall i, (i < Nat.div m M)%nat -> exists s, InterfaceViewRunProps.is_average (group i) s) as Hex.
  { intros i Hi. apply has_average; [|apply HG]. pose proof (HiM i Hi). intros C. apply (f_equal (@length _)) in C. unfold group in C. rewrite map_length, firstn_length, skipn_length, LS in C. cbn [length] in C. lia. }
  assert (exists averages, length averages = Nat.div m M /\ forall i s, nth_error averages i = Some s -> InterfaceViewRunProps.is_average (group i) s) as (averages & Lav & Hgr).
  { clear -Hex. induction (Nat.div m M) as [|k IH]; [exists []; split; [reflexivity|intros [|i] s H; discriminate]|].
    destruct IH as (l & L & H); [intros i Hi; apply Hex; lia|]. destruct (Hex k ltac:(lia)) as (s & Hs). exists (l ++ [s]). split; [rewrite app_length; cbn; lia|]. intros i t Ht.
    destruct (Nat.lt_ge_cases i k) as [Hi|Hi]; [rewrite nth_error_app1 in Ht by lia; exact (H i t Ht)|]. rewrite nth_error_app2 in Ht by lia.
    destruct (i - length l)%nat as [|q] eqn:Eq; [|destruct q; discriminate]. cbn in Ht. injection Ht as <-. replace i with k by lia. exact Hs. }
  destruct (CurveRunProps.C95_interface_view lib w dashed d1 argv2 occs2 output M fig show xlim ylim2 title xlabel ylabel b2 (Some (b2 + Z.of_nat m - 1)%Z) ".xvg" extfig m (map Some averages) HM) as (K & fs & err & HK & Hend); try assumption.
  { split.
    - intros k Hk. split; [lia|]. destruct (nth_error arrays (s0 + Z.to_nat k)) as [a|] eqn:Ea; [|apply nth_error_None in Ea; lia]. specialize (HF _ a Ea). unfold Utils.exists_path.
      replace (b + Z.of_nat (s0 + Z.to_nat k))%Z with (b2 + k)%Z in HF by lia. unfold Average.content in HF.
      destruct (Utils.lookup (Utils.files d1) (Formats.os_path (Utils.fname output (b2 + k) ".xvg"))); [reflexivity|discriminate].
    - intros [C _]. lia. }
  { rewrite map_length. exact Lav. }
  { intros i v Hv. rewrite nth_error_map in Hv. destruct (nth_error averages i) as [s|] eqn:Es; [|discriminate]. cbn [option_map] in Hv. injection Hv as <-.
    assert (i < Nat.div m M)%nat as Hi by (rewrite <- Lav; apply nth_error_Some; congruence). pose proof (HiM i Hi) as HiB.
    exists (group i). split; [|exact (Hgr i s Es)]. unfold InterfaceViewRunProps.group_names. rewrite numbers_seq, map_map. unfold group, AverageSpec.bundle_start.
    assert (firstn M (skipn (s0 + i * M) saved) = map (fun k => rounded (nth (s0 + i * M + k) arrays [])) (seq 0 M)) as ->.
    { unfold saved. rewrite (window_map _ (s0 + i * M) M []) by (rewrite map_length; lia). apply map_ext. intros k. change (@nil (Qc * Qc)) with (rounded []) at 1. apply map_nth. }
    rewrite map_map. assert (forall k, (k < M)%nat -> Table.read_columns (Average.content d1 (Utils.fname output (b2 + Z.of_nat (i * M) + Z.of_nat k) ".xvg")) = Ok (columns (rounded (nth (s0 + i * M + k) arrays []))) /\
      InterfaceViewProps.well_formed (columns (rounded (nth (s0 + i * M + k) arrays [])))) as G.
    { intros k Hk. split.
      - replace (b2 + Z.of_nat (i * M) + Z.of_nat k)%Z with (b + Z.of_nat (s0 + i * M + k))%Z by lia. apply HF. apply nth_error_nth'. lia.
      - apply HW. unfold saved. apply in_map. apply nth_In. lia. }
    assert (forall l, (forall k, In k l -> (k < M)%nat) -> Forall2 (fun nm j => Table.read_columns (Average.content d1 nm) = Ok j /\ InterfaceViewProps.well_formed j)
      (map (fun k => Utils.fname output (b2 + Z.of_nat (i * M) + Z.of_nat k) ".xvg") l) (map (fun k => columns (rounded (nth (s0 + i * M + k) arrays []))) l)) as GL.
    { clear -G. induction l as [|k l IH]; intros Hl; cbn [map]; constructor; [apply G, Hl; left; reflexivity|apply IH; intros k' Hk'; apply Hl; right; exact Hk']. }
    apply GL. intros k Hk. apply in_seq in Hk. lia. }
  exists d1, saved, averages, K, fs, err. split; [exact E1|]. split.
  { reflexivity. }
  split; [exact Lav|]. split; [exact Hgr|]. split; [exact HK|]. cbv zeta in Hend |- *. destruct err as [err|]; [exact Hend|]. destruct Hend as [E2 HD]. split; [eexists; exact E2|exact HD].
Qed.
(** From the maps to the figures of the interfaces.  If the layers of the collected interfaces are more than a thousandth apart, collecting them and viewing those from number [b2] to number [b2 + m - 1] draws one figure
    for each group of [M] of them, in order: the average of these interfaces, of which each point is the one collected to three decimals. *)
Theorem C97_collect_view : forall lib w dashed d argv1 occs1 base output rec cutoff bins radius ylim b e x n maps arrays argv2 occs2 M fig show xlim ylim2 title xlabel ylabel b2 m extfig, (0 < M)%nat ->
  (* strata interface collect *)
  writes (takes interface_collect_options) argv1 occs1 [base; output] -> not_given occs1 help -> chosen occs1 ["--recenter"] (one_of ["off"; "com"; "zero"]) "zero" rec ->
  chosen occs1 ["-co"; "--cutoff"] (some_of number_text) None cutoff -> chosen occs1 ["-cb"; "--cutoff_bins"] int_text 1%Z bins -> chosen occs1 ["-cr"; "--cutoff_radius"] number_text (ZQ 1) radius ->
  chosen2 occs1 ["--ylim"] number_or_none (None, None) ylim ->
  chosen occs1 ["-b"; "--begin"] (int_from 0) 1%Z b -> chosen occs1 ["-e"; "--end"] (some_of (int_from 0)) None e -> chosen occs1 ["--ext"] as_is ".dat" x ->
  (* the maps and their interfaces *)
  wf d -> (n < w_ffuel w)%nat -> FilesSpec.run_length (fun z => match e with Some l => (z <= l)%Z | None => True end /\ Utils.exists_path d (Formats.os_path (Utils.fname base z x)) = true) b n ->
  (forall j k, (b <= j < k)%Z -> (k < b + Z.of_nat n)%Z -> Formats.os_path (Utils.fname output j ".xvg") <> Formats.os_path (Utils.fname base k x)) ->
  length maps = n -> (forall i mp, nth_error maps i = Some mp -> InterfaceFiles.flow_file (w_fuel w) (Average.content d (Utils.fname base (b + Z.of_nat i) x)) = Ok mp) ->
  Collect.collect_interfaces bM maps cutoff (Some radius) bins ylim None (if String.eqb rec "zero" then Collect.Zero else if String.eqb rec "com" then Collect.Com else Collect.OtherOption) = Ok arrays ->
  (forall a, In a arrays -> apart a) ->
  one_line (InterfaceFiles.e_module (w_env w)) -> one_line (InterfaceFiles.e_date (w_env w)) -> one_line (InterfaceFiles.e_version (w_env w)) -> one_line (InterfaceFiles.e_cwd (w_env w)) ->
  (forall v, one_line (w_repr w v)) -> one_line (txt output) ->
  (* strata interface view *)
  writes (takes interface_view_options) argv2 occs2 [output] -> not_given occs2 help -> chosen occs2 ["-av"; "--average"] (int_from 1) 1%Z (Z.of_nat M) ->
  chosen occs2 ["-o"; "--save_fig"] (some_of as_is) None fig -> chosen occs2 ["-x"; "--save_xvg"] as_is "" "" ->
  switched occs2 ["--show"] ["--noshow"] true show -> chosen2 occs2 ["--xlim"] number_or_none (None, None) xlim -> chosen2 occs2 ["--ylim"] number_or_none (None, None) ylim2 ->
  chosen occs2 ["--title"] as_is "Droplet interface" title -> chosen occs2 ["--xlabel"] as_is "x (nm)" xlabel -> chosen occs2 ["--ylabel"] as_is "y (nm)" ylabel ->
  chosen occs2 ["-b"; "--begin"] (int_from 0) 1%Z b2 -> chosen occs2 ["-e"; "--end"] (some_of (int_from 0)) None (Some (b2 + Z.of_nat m - 1)%Z) -> chosen occs2 ["--ext"] as_is ".xvg" ".xvg" ->
  chosen occs2 ["--extfig"] as_is ".png" extfig ->
  (b <= b2)%Z -> (b2 + Z.of_nat m <= b + Z.of_nat n)%Z -> (m + 1 < w_ffuel w)%nat ->
  exists d1 saved averages K fs err, main w dashed d ("interface" :: "collect" :: argv1) = Some (Done d1 [] (Some TypeErr)) /\
    Forall2 (fun a c => stored a (map fst c) (map snd c)) arrays saved /\
    length averages = Nat.div m M /\
    (forall i s, nth_error averages i = Some s -> InterfaceViewRunProps.is_average (map columns (firstn M (skipn (Z.to_nat (b2 - b) + i * M) saved))) s) /\
    (forall i, AverageSpec.bundle_output b2 M false i (K + Z.of_nat i)) /\
    let gs := InterfaceViewRunProps.figures fig extfig K (map Some averages) in
    let l := fun name => CurveRunProps.mkLook title xlabel ylabel xlim ylim2 (Some "scaled") false false name show in
    match err with
    | None => (exists r, draw_interfaces lib w dashed d1 ("interface" :: "view" :: argv2) = Some (fs, Ok r)) /\ Forall2 (fun g f => CurveRunProps.interface_drawn lib l g f None) gs fs
    | Some err => draw_interfaces lib w dashed d1 ("interface" :: "view" :: argv2) = Some (fs, Err err) /\ ~ (forall c, ViewRunProps.lib_ok lib c) /\
        exists done g rest fs' f, gs = done ++ g :: rest /\ fs = fs' ++ [f] /\ Forall2 (fun g f => CurveRunProps.interface_drawn lib l g f None) done fs' /\ CurveRunProps.interface_drawn lib l g f (Some err)
    end.
Proof.
  intros lib w dashed d argv1 occs1 base output rec cutoff bins radius ylim b e x n maps arrays argv2 occs2 M fig show xlim ylim2 title xlabel ylabel b2 m extfig HM
    W1 H1 Hrec Hco Hcb Hcr Hyl Hb He Hx Hw Hf Hr Hov HL HR HC HA O1 O2 O3 O4 O5 O6 W2 H2 Hav Hfig Hsave Hshow Hxl Hyl2 Hti Hxla Hyla Hb2 He2 Hx2 Hef Hlo Hhi Hm.
  destruct (collect_view lib w dashed d argv1 occs1 base output rec cutoff bins radius ylim b e x n maps arrays argv2 occs2 M fig show xlim ylim2 title xlabel ylabel b2 m extfig HM
    W1 H1 Hrec Hco Hcb Hcr Hyl Hb He Hx Hw Hf Hr Hov HL HR HC HA O1 O2 O3 O4 O5 O6 W2 H2 Hav Hfig Hsave Hshow Hxl Hyl2 Hti Hxla Hyla Hb2 He2 Hx2 Hef Hlo Hhi Hm)
    as (d1 & saved & averages & K & fs & err & E1 & Es & Hrest).
  exists d1, saved, averages, K, fs, err. split; [exact E1|]. split; [rewrite Es; exact (rounded_stored arrays)|exact Hrest].
Qed.
Print Assumptions C97_collect_view.

(** The average of a single interface whose heights rise along its left edge and fall along its right edge is the interface. *)
Definition swap (p : Qc * Qc) : Qc * Qc := (snd p, fst p).
Lemma inc_nth (l : list Qc) : (forall i j, (i < j)%nat -> (j < length l)%nat -> nth i l 0 < nth j l 0) -> increasing l.
Proof.
  induction l as [|x l IH]; intros H; constructor.
  - intros y Hy. destruct (In_nth l y 0 Hy) as (i & Hi & <-). apply (H 0%nat (S i)); cbn; lia.
  - apply IH. intros i j Hij Hj. apply (H (S i) (S j)); cbn; lia.
Qed.
Lemma points_in (c : list (Qc * Qc)) (P : nat -> Prop) y x :
  (exists k, P k /\ nth_error (map fst c) k = Some x /\ nth_error (map snd c) k = Some y) <-> exists k, P k /\ nth_error c k = Some (x, y).
Proof.
  split; intros (k & Hk & H).
  - destruct H as [H1 H2]. exists k. split; [exact Hk|]. rewrite nth_error_map in H1, H2. destruct (nth_error c k) as [[u v]|]; [|discriminate]. cbn in H1, H2. congruence.
  - exists k. split; [exact Hk|]. rewrite !nth_error_map, H. split; reflexivity.
Qed.
Lemma in_firstn_nth {A} (l : list A) n x : In x (firstn n l) <-> exists k, (k < n)%nat /\ nth_error l k = Some x.
Proof.
  split.
  - intros H. apply In_nth_error in H as (k & H). assert (k < n)%nat as Hk by (assert (k < length (firstn n l))%nat as C by (apply nth_error_Some; congruence); rewrite firstn_length in C; lia).
    exists k. split; [exact Hk|]. rewrite <- (firstn_skipn n l). rewrite nth_error_app1; [exact H|]. apply nth_error_Some. congruence.
  - intros (k & Hk & H). assert (k < length l)%nat as Hl by (apply nth_error_Some; congruence). rewrite <- (firstn_skipn n l) in H. rewrite nth_error_app1 in H by (rewrite firstn_length; lia). exact (nth_error_In _ _ H).
Qed.
Lemma in_skipn_nth {A} (l : list A) n x : In x (skipn n l) <-> exists k, (n <= k)%nat /\ nth_error l k = Some x.
Proof.
  assert (forall k, nth_error (skipn n l) k = nth_error l (n + k)) as N.
  { intros k. revert n; induction l as [|y l IH]; intros [|n]; cbn; try reflexivity; [destruct k; reflexivity|apply IH]. }
  split.
  - intros H. apply In_nth_error in H as (k & H). exists (n + k)%nat. split; [lia|]. rewrite <- N. exact H.
  - intros (k & Hk & H). apply (nth_error_In _ (k - n)). rewrite N. replace (n + (k - n))%nat with k by lia. exact H.
Qed.
Lemma mean_alone (x : Qc) : qsum [x] / NQ (length [0]) = x.
Proof. change (qsum [x]) with (x + 0). change (NQ (length [0])) with 1. field. discriminate. Qed.
Lemma average_alone c s : two_edges c -> (forall i j, (i < j)%nat -> (2 * j < length c)%nat -> snd (nth i c (0, 0)) < snd (nth j c (0, 0))) ->
  InterfaceViewProps.well_formed (columns c) -> InterfaceViewRunProps.is_average [columns c] s -> s = map swap c.
Proof.
  intros (k & L & HS) HR HW HA.
  assert (forall s, InterfaceViewRunProps.is_average [columns c] s -> InterfaceView.average_interfaces [columns c] = Ok s) as U.
  { intros t Ht. apply InterfaceViewRunProps.average_unique; [discriminate|intros i [<- | []]; exact HW|exact Ht]. }
  assert (InterfaceViewRunProps.is_average [columns c] (map swap c)) as HB; [|apply U in HA, HB; congruence]. clear s HA U HW.
  assert (InterfaceViewProps.split_at (columns c) = k) as SK.
  { unfold InterfaceViewProps.split_at, columns. cbn [fst]. rewrite map_length, L. replace (k + k)%nat with (k * 2)%nat by lia. apply Nat.div_mul. lia. }
  exists (map swap (firstn k c)), (rev (map swap (skipn k c))). rewrite rev_involutive, <- map_app, firstn_skipn. split; [reflexivity|].
  assert (forall l, map fst (map swap l) = map snd l) as FS by (intros l; rewrite map_map; reflexivity).
  assert (forall l : list (Qc * Qc), forall i, nth i (map snd l) 0 = snd (nth i l (0, 0))) as N by (intros l i; exact (map_nth snd l (0, 0) i)).
  split; [|split; [|split]].
  - rewrite FS. apply inc_nth. intros i j Hij Hj. rewrite map_length, firstn_length in Hj. rewrite !N, !nth_firstn_lt by lia. apply HR; lia.
  - rewrite map_rev, FS. apply inc_nth. intros i j Hij Hj. rewrite rev_length, map_length, skipn_length in Hj. rewrite !rev_nth by (rewrite map_length, skipn_length; lia). rewrite map_length, skipn_length, !N, !nth_skipn, L.
    replace (k + (k + k - k - S i))%nat with (k + k - 1 - i)%nat by lia. replace (k + (k + k - k - S j))%nat with (k + k - 1 - j)%nat by lia. rewrite <- !HS by lia. apply HR; lia.
  - intros y x. transitivity (InterfaceViewProps.left_point (columns c) y x).
    + unfold InterfaceViewProps.left_point. rewrite SK. unfold columns. cbn [fst snd]. rewrite points_in, <- in_firstn_nth. rewrite in_map_iff. unfold swap. split.
      * intros ([u v] & E & H). cbn in E. injection E as -> ->. exact H.
      * intros H. exists (x, y). split; [reflexivity|exact H].
    + split.
      * intros H. exists [x]. split; [constructor; [exact H|constructor]|]. symmetry. apply mean_alone.
      * intros (vs & HF & ->). inversion HF as [|? v ? ? HP HN]; subst. inversion HN; subst. assert (qsum [v] / NQ (length [columns c]) = v) as -> by exact (mean_alone v). exact HP.
  - intros y x. transitivity (InterfaceViewProps.right_point (columns c) y x).
    + unfold InterfaceViewProps.right_point. rewrite SK. unfold columns. cbn [fst snd]. rewrite points_in, <- in_skipn_nth. rewrite <- in_rev, in_map_iff. unfold swap. split.
      * intros ([u v] & E & H). cbn in E. injection E as -> ->. exact H.
      * intros H. exists (x, y). split; [reflexivity|exact H].
    + split.
      * intros H. exists [x]. split; [constructor; [exact H|constructor]|]. symmetry. apply mean_alone.
      * intros (vs & HF & ->). inversion HF as [|? v ? ? HP HN]; subst. inversion HN; subst. assert (qsum [v] / NQ (length [columns c]) = v) as -> by exact (mean_alone v). exact HP.
Qed.

Lemma collected_length cutoff radius nb lims o maps : forall old arrays, Collect.collect_interfaces bM maps cutoff radius nb lims old o = Ok arrays -> length arrays = length maps.
Proof.
  induction maps as [|[b fi] maps IH]; intros old arrays H; cbn [Collect.collect_interfaces] in H; [injection H as <-; reflexivity|].
  destruct (Collect.get_interface_coordinates bM b fi cutoff radius nb lims old o) as [[a1 st]|]; [|discriminate]. cbn [rbind] in H.
  destruct (Collect.collect_interfaces bM maps cutoff radius nb lims (Some st) o) as [rest|] eqn:E2; [|discriminate]. cbn [rbind] in H. injection H as <-. cbn [length]. f_equal. exact (IH _ _ E2).
Qed.
Lemma Forall2_len {A B} (P : A -> B -> Prop) l m : Forall2 P l m -> length l = length m.
Proof. intros H. induction H; cbn; congruence. Qed.
Lemma Forall2_nth_r {A B} (P : A -> B -> Prop) l m i y : Forall2 P l m -> nth_error m i = Some y -> exists x, nth_error l i = Some x /\ P x y.
Proof. intros H. revert i. induction H as [|a c l m Hac H IH]; intros [|i] E; try discriminate; [injection E as <-; exists a; auto|exact (IH i E)]. Qed.

(** Without averages: each of these interfaces has a figure with its points as they were saved, in order, saved under its own number if '-o' is given. *)
Theorem C97_each_interface : forall lib w dashed d argv1 occs1 base output rec cutoff bins radius ylim b e x n maps arrays argv2 occs2 fig show xlim ylim2 title xlabel ylabel b2 m extfig, (forall c, ViewRunProps.lib_ok lib c) ->
  (* strata interface collect *)
  writes (takes interface_collect_options) argv1 occs1 [base; output] -> not_given occs1 help -> chosen occs1 ["--recenter"] (one_of ["off"; "com"; "zero"]) "zero" rec ->
  chosen occs1 ["-co"; "--cutoff"] (some_of number_text) None cutoff -> chosen occs1 ["-cb"; "--cutoff_bins"] int_text 1%Z bins -> chosen occs1 ["-cr"; "--cutoff_radius"] number_text (ZQ 1) radius ->
  chosen2 occs1 ["--ylim"] number_or_none (None, None) ylim ->
  chosen occs1 ["-b"; "--begin"] (int_from 0) 1%Z b -> chosen occs1 ["-e"; "--end"] (some_of (int_from 0)) None e -> chosen occs1 ["--ext"] as_is ".dat" x ->
  (* the maps and their interfaces *)
  wf d -> (n < w_ffuel w)%nat -> FilesSpec.run_length (fun z => match e with Some l => (z <= l)%Z | None => True end /\ Utils.exists_path d (Formats.os_path (Utils.fname base z x)) = true) b n ->
  (forall j k, (b <= j < k)%Z -> (k < b + Z.of_nat n)%Z -> Formats.os_path (Utils.fname output j ".xvg") <> Formats.os_path (Utils.fname base k x)) ->
  length maps = n -> (forall i mp, nth_error maps i = Some mp -> InterfaceFiles.flow_file (w_fuel w) (Average.content d (Utils.fname base (b + Z.of_nat i) x)) = Ok mp) ->
  Collect.collect_interfaces bM maps cutoff (Some radius) bins ylim None (if String.eqb rec "zero" then Collect.Zero else if String.eqb rec "com" then Collect.Com else Collect.OtherOption) = Ok arrays ->
  (forall a, In a arrays -> apart a) ->
  one_line (InterfaceFiles.e_module (w_env w)) -> one_line (InterfaceFiles.e_date (w_env w)) -> one_line (InterfaceFiles.e_version (w_env w)) -> one_line (InterfaceFiles.e_cwd (w_env w)) ->
  (forall v, one_line (w_repr w v)) -> one_line (txt output) ->
  (* strata interface view *)
  writes (takes interface_view_options) argv2 occs2 [output] -> not_given occs2 help -> chosen occs2 ["-av"; "--average"] (int_from 1) 1%Z 1%Z ->
  chosen occs2 ["-o"; "--save_fig"] (some_of as_is) None fig -> chosen occs2 ["-x"; "--save_xvg"] as_is "" "" ->
  switched occs2 ["--show"] ["--noshow"] true show -> chosen2 occs2 ["--xlim"] number_or_none (None, None) xlim -> chosen2 occs2 ["--ylim"] number_or_none (None, None) ylim2 ->
  chosen occs2 ["--title"] as_is "Droplet interface" title -> chosen occs2 ["--xlabel"] as_is "x (nm)" xlabel -> chosen occs2 ["--ylabel"] as_is "y (nm)" ylabel ->
  chosen occs2 ["-b"; "--begin"] (int_from 0) 1%Z b2 -> chosen occs2 ["-e"; "--end"] (some_of (int_from 0)) None (Some (b2 + Z.of_nat m - 1)%Z) -> chosen occs2 ["--ext"] as_is ".xvg" ".xvg" ->
  chosen occs2 ["--extfig"] as_is ".png" extfig ->
  (b <= b2)%Z -> (b2 + Z.of_nat m <= b + Z.of_nat n)%Z -> (m + 1 < w_ffuel w)%nat ->
  exists d1 saved fs r, main w dashed d ("interface" :: "collect" :: argv1) = Some (Done d1 [] (Some TypeErr)) /\
    Forall2 (fun a c => stored a (map fst c) (map snd c)) arrays saved /\
    draw_interfaces lib w dashed d1 ("interface" :: "view" :: argv2) = Some (fs, Ok r) /\ length fs = m /\
    forall i f, nth_error fs i = Some f -> exists c, nth_error saved (Z.to_nat (b2 - b) + i) = Some c /\
      CurveRunProps.drawn lib (CurveRunProps.mkLook title xlabel ylabel xlim ylim2 (Some "scaled") false false (option_map (fun p => Utils.fname p (b2 + Z.of_nat i) extfig) fig) show)
        [(None, CurveFigureProps.points c)] f None.
Proof.
  intros lib w dashed d argv1 occs1 base output rec cutoff bins radius ylim b e x n maps arrays argv2 occs2 fig show xlim ylim2 title xlabel ylabel b2 m extfig Hlib
    W1 H1 Hrec Hco Hcb Hcr Hyl Hb He Hx Hw Hf Hr Hov HL HR HC HA O1 O2 O3 O4 O5 O6 W2 H2 Hav Hfig Hsave Hshow Hxl Hyl2 Hti Hxla Hyla Hb2 He2 Hx2 Hef Hlo Hhi Hm.
  destruct (collect_view lib w dashed d argv1 occs1 base output rec cutoff bins radius ylim b e x n maps arrays argv2 occs2 1 fig show xlim ylim2 title xlabel ylabel b2 m extfig ltac:(lia)
    W1 H1 Hrec Hco Hcb Hcr Hyl Hb He Hx Hw Hf Hr Hov HL HR HC HA O1 O2 O3 O4 O5 O6 W2 H2 Hav Hfig Hsave Hshow Hxl Hyl2 Hti Hxla Hyla Hb2 He2 Hx2 Hef Hlo Hhi Hm)
    as (d1 & saved & averages & K & fs & err & E1 & Es & Lav & HG & HK & Hend). cbv zeta in Hend. rewrite Nat.div_1_r in Lav.
  destruct err as [err|]; [destruct Hend as (_ & C & _); contradiction|]. destruct Hend as [(r & E2) HD].
  pose proof (collected_two_edges _ _ _ _ _ _ _ _ HC) as HT.
  assert (length arrays = n) as LA by (rewrite <- HL; exact (collected_length _ _ _ _ _ _ _ _ HC)).
  assert (K = b2) as -> by (pose proof (HK 0%nat) as C; unfold AverageSpec.bundle_output, AverageSpec.bundle_start in C; cbv zeta in C; lia).
  assert (forall i s, nth_error averages i = Some s -> exists a, nth_error arrays (Z.to_nat (b2 - b) + i) = Some a /\ s = map swap (rounded a) /\ (2 <= length s)%nat) as HP.
  { intros i s Hi. assert (i < m)%nat as Hi' by (rewrite <- Lav; apply nth_error_Some; congruence). specialize (HG i s Hi). rewrite Nat.mul_1_r in HG.
    destruct (nth_error arrays (Z.to_nat (b2 - b) + i)) as [a|] eqn:Ea; [|apply nth_error_None in Ea; lia]. exists a. split; [reflexivity|].
    rewrite (window_map _ _ 1 []) in HG by (rewrite Es, map_length; lia). cbn [seq map] in HG. rewrite Nat.add_0_r in HG. rewrite Es in HG. change (@nil (Qc * Qc)) with (rounded []) in HG. rewrite map_nth in HG.
    rewrite (nth_error_nth _ _ _ Ea) in HG. pose proof (nth_error_In _ _ Ea) as Hin. destruct (HT a Hin) as [T2 L2]. pose proof (HA a Hin) as Hap.
    assert (s = map swap (rounded a)) as ->; [|split; [reflexivity|unfold rounded; rewrite !map_length; exact L2]].
    apply average_alone; [apply rounded_two_edges; exact T2| |apply columns_well_formed; [exact T2|exact Hap]|exact HG].
    intros u v Huv Hv. apply rounded_rises; [exact Hap|exact Huv|]. unfold rounded in Hv. rewrite map_length in Hv. exact Hv. }
  assert (forall av K0, (forall s, In s av -> (2 <= length s)%nat) -> InterfaceViewRunProps.figures fig extfig K0 (map Some av) =
    map (fun p => (option_map (fun q => Utils.fname q (K0 + Z.of_nat (fst p)) extfig) fig, snd p)) (combine (seq 0 (length av)) av)) as HF.
  { clear. induction av as [|s av IH]; intros K0 H; [reflexivity|]. cbn [map InterfaceViewRunProps.figures length seq combine fst snd]. pose proof (H s (or_introl eq_refl)) as Hs.
    destruct (Nat.leb_spec 2 (length s)); [|lia]. cbn [app]. rewrite Z.add_0_r. f_equal. rewrite IH by (intros t Ht; apply H; right; exact Ht).
    rewrite <- seq_shift. clear. generalize (seq 0 (length av)). intros q. revert av. induction q as [|u q IH]; intros [|a av]; cbn [combine map]; try reflexivity. f_equal; [|apply IH]. cbn [fst snd].
    f_equal. destruct fig; [|reflexivity]. cbn. do 2 f_equal. lia. }
  rewrite HF in HD by (intros s Hs; apply In_nth_error in Hs as (i & Hi); destruct (HP i s Hi) as (_ & _ & _ & H); exact H).
  exists d1, saved, fs, r. split; [exact E1|]. split; [rewrite Es; exact (rounded_stored arrays)|].
  split; [exact E2|]. split; [apply Forall2_len in HD; rewrite map_length, combine_length, seq_length, Nat.min_id in HD; rewrite <- HD; exact Lav|].
  intros i f Hi. destruct (Forall2_nth_r _ _ _ _ _ HD Hi) as (g & Hg & D). rewrite nth_error_map in Hg. destruct (nth_error (combine _ _) i) as [[u s]|] eqn:Ec; [|discriminate]. cbn [option_map] in Hg. injection Hg as <-.
  rewrite CollectRunP.combine_nth_error in Ec. unfold InterfaceView.series in *. destruct (nth_error (seq 0 (length averages)) i) as [u'|] eqn:Eu; [|discriminate]. destruct (nth_error averages i) as [s'|] eqn:Ev; [|discriminate]. injection Ec as -> ->.
  assert (u = i) as ->. { assert (i < length averages)%nat as Hi' by (apply nth_error_Some; congruence). rewrite (nth_error_nth' _ 0%nat) in Eu by (rewrite seq_length; exact Hi'). rewrite seq_nth in Eu by exact Hi'. cbn in Eu. congruence. }
  destruct (HP i s Ev) as (a & Ha & -> & _). exists (rounded a). split; [rewrite Es, nth_error_map, Ha; reflexivity|].
  unfold CurveRunProps.interface_drawn in D. cbn [fst snd] in D. unfold CurveFigureProps.profile in D. rewrite map_map in D. exact D.
Qed.
Print Assumptions C97_each_interface.

(** ** A concrete pair of commands *)
Definition apartb (a : list (Qc * Qc)) : bool :=
  forallb (fun j => forallb (fun i => qlt (snd (nth i a (0, 0)) + Q2Qc (1 # 1000)) (snd (nth j a (0, 0)))) (seq 0 j)) (seq 0 (length a - Nat.div (length a) 2)).
Lemma apartb_apart a : apartb a = true -> apart a.
Proof.
  intros H i j Hij Hj. unfold apartb in H. rewrite forallb_forall in H. assert (In j (seq 0 (length a - Nat.div (length a) 2))) as Hin.
  { apply in_seq. pose proof (Nat.div_mod (length a) 2 ltac:(lia)). pose proof (Nat.mod_upper_bound (length a) 2 ltac:(lia)). lia. }
  specialize (H j Hin). cbv beta in H. rewrite forallb_forall in H. apply qlt_true. apply H. apply in_seq. lia.
Qed.
Lemma ex_apart : forall a, In a ex_arrays -> apart a.
Proof.
  assert (forallb apartb ex_arrays = true) as H by (vm_compute; reflexivity). rewrite forallb_forall in H. intros a Ha. apply apartb_apart, H, Ha.
Qed.
Example C97_ex : forall lib w, (forall c, ViewRunProps.lib_ok lib c) -> w_ffuel w = 10%nat -> w_fuel w = 60%nat ->
  one_line (InterfaceFiles.e_module (w_env w)) -> one_line (InterfaceFiles.e_date (w_env w)) -> one_line (InterfaceFiles.e_version (w_env w)) -> one_line (InterfaceFiles.e_cwd (w_env w)) -> (forall v, one_line (w_repr w v)) ->
  exists d1 f c r, main w true InterfaceFilesProps.ex_disk ["interface"; "collect"; "map_"; "out_"; "--recenter"; "off"; "-co"; "4"] = Some (Done d1 [] (Some TypeErr)) /\
    draw_interfaces lib w true d1 ["interface"; "view"; "out_"; "-o"; "f_"; "-b"; "2"; "-e"; "2"] = Some ([f], Ok r) /\
    (exists a, nth_error ex_arrays 1 = Some a /\ stored a (map fst c) (map snd c)) /\
    CurveRunProps.drawn lib (CurveRunProps.mkLook "Droplet interface" "x (nm)" "y (nm)" (None, None) (None, None) (Some "scaled") false false (Some "f_00002.png") true)
      [(None, CurveFigureProps.points c)] f None.
Proof.
  intros lib w Hlib Hff Hf O1 O2 O3 O4 O5.
  destruct (C97_each_interface lib w true InterfaceFilesProps.ex_disk ["map_"; "out_"; "--recenter"; "off"; "-co"; "4"] [("--recenter", ["off"]); ("-co", ["4"])] "map_" "out_" "off" (Some (ZQ 4)) 1 (ZQ 1) (None, None) 1 None ".dat"
    2 InterfaceFilesProps.file_maps ex_arrays ["out_"; "-o"; "f_"; "-b"; "2"; "-e"; "2"] [("-o", ["f_"]); ("-b", ["2"]); ("-e", ["2"])] (Some "f_") true (None, None) (None, None)
    "Droplet interface" "x (nm)" "y (nm)" 2 1 ".png") as (d1 & saved & fs & r & E1 & HS & E2 & L & HD).
  - exact Hlib.
  - apply (writes_ext (arity interface_collect_cmd)); [intros f; exact (arity_flatten interface_collect_cmd f)|]. apply scan_writes; reflexivity.
  - not_there.
  - left. exists "--recenter", "off". split; [split; [cbn; auto|eexists [], _; split; [reflexivity|not_there]]|]. split; [cbn; auto|reflexivity].
  - left. exists "-co", "4". split; [split; [cbn; auto|eexists [("--recenter", ["off"])], []; split; [reflexivity|not_there]]|]. exists (ZQ 4). split; [|reflexivity]. apply py_float_iff. vm_compute. reflexivity.
  - not_said.
  - not_said.
  - not_said.
  - not_said.
  - not_said.
  - not_said.
  - repeat constructor; cbn; intuition discriminate.
  - rewrite Hff. lia.
  - exact InterfaceFilesProps.ex_run.
  - intros j k Hj Hk. assert (j = 1 /\ k = 2)%Z as [-> ->] by lia. vm_compute. discriminate.
  - reflexivity.
  - rewrite Hf. exact InterfaceFilesProps.ex_reads.
  - change (String.eqb "off" "zero") with false. change (String.eqb "off" "com") with false. cbv iota. unfold ex_arrays.
    assert (exists a, Collect.collect_interfaces bM InterfaceFilesProps.file_maps (Some (ZQ 4)) (Some (ZQ 1)) 1 (None, None) None Collect.OtherOption = Ok a) as (a & ->); [|reflexivity].
    eexists. vm_compute. reflexivity.
  - exact ex_apart.
  - exact O1.
  - exact O2.
  - exact O3.
  - exact O4.
  - exact O5.
  - InterfaceFilesProps.lit.
  - apply (writes_ext (arity interface_view_cmd)); [intros f; exact (arity_flatten interface_view_cmd f)|]. apply scan_writes; reflexivity.
  - not_there.
  - not_said.
  - left. exists "-o", "f_". split; [split; [cbn; auto|eexists [], _; split; [reflexivity|not_there]]|]. exists "f_". split; reflexivity.
  - not_said.
  - not_said.
  - not_said.
  - not_said.
  - not_said.
  - not_said.
  - not_said.
  - left. exists "-b", "2". split; [split; [cbn; auto|eexists [("-o", ["f_"])], _; split; [reflexivity|not_there]]|]. split; [|lia]. apply py_int_iff. vm_compute. reflexivity.
  - left. exists "-e", "2". split; [split; [cbn; auto|eexists [("-o", ["f_"]); ("-b", ["2"])], []; split; [reflexivity|not_there]]|]. exists 2%Z. split; [|reflexivity]. split; [|lia]. apply py_int_iff. vm_compute. reflexivity.
  - not_said.
  - not_said.
  - lia.
  - lia.
  - rewrite Hff. lia.
  - destruct fs as [|f [|]]; try discriminate L. destruct (HD 0%nat f eq_refl) as (c & Hc & D). exists d1, f, c, r. split; [exact E1|]. split; [exact E2|]. split; [|exact D].
    destruct (Forall2_nth_r _ _ _ _ _ HS Hc) as (a & Ha & Hs). exists a. split; [exact Ha|exact Hs].
Qed.
