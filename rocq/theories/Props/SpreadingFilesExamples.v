(** Concrete cases for C73-C76: two maps in plain files; the droplet moves across the boundary of the box. *)
From Coq Require Import String Ascii Reals.
From Verif.Base Require Import QcX QcR Res Np Bytes.
From Verif.Model Require Utils Flow Average.
From Verif.Model Require Import Bins Text Gmx Simple Formats Table SpreadingView PowerFit InterfaceFiles SpreadingFiles FitFiles Spreading.
From Verif.Spec Require Import FilesSpec DiskSpec TableSpec SpreadingSpec.
From Verif.Proofs Require Import UtilsDisk TableP SpreadingReadP.
From Verif.Props Require Import PowerFitProps SpreadingFilesProps SpreadingRunProps.
From Verif.Props Require SpreadingProps InterfaceFilesProps.
Import InterfaceFilesProps(ex_disk, ex_fo, ex_run, one_line).
Import Utils(disk, fname, exists_path).
Local Open Scope Qc_scope.
Local Open Scope list_scope.
Local Notation length := List.length.

Definition ex_sopts : sopts := mkSopts (Some (ZQ 4)) 1 1 None.
Definition ex_info : sinfo := mkSinfo (txt "Mon Jan  1 12:00:00 2018") (txt "0.5") (txt "'map_'") (txt "1") (txt "inf") (txt "None") (txt "1.0") (txt "4.0") (txt "1.0") (txt "1").
Definition ex_frames : list Spreading.frame := [mkFrame "map_00001.dat" (ZQ 6) (Some (ZQ 2, ZQ 4)); mkFrame "map_00002.dat" (ZQ 6) (Some (ZQ 4, 0))].
Definition ex_traj : list (Qc * Qc) := [(ZQ 2, ZQ 4); (ZQ 4, ZQ 6)].
Definition read_out (d : disk) : list (string * list (option Q * option Q)) * list string :=
  let q v := match v with Fin x => Some (this x) | _ => None end in
  let (ss, ws) := read_spreading_data d ["spread.xvg"%string] in (map (fun s => (s_name s, map (fun p => (q (fst p), q (snd p))) (s_points s))) ss, ws).
Definition ex_saved : disk := Eval vm_compute in fst (fst (spreading_run 10 60 (spreading_header ex_info) ex_sopts (Q2Qc (1 # 3)) 0 ex_disk false "map_" (Some "spread.xvg"%string) ex_fo)).
Example C73_ex : read_out ex_saved =
  ([("spread.xvg.1", [(Some 0, Some 1); (Some (333 # 1000), Some 1)]); ("spread.xvg.2", [(Some 0, Some 2); (Some (333 # 1000), Some 4)]);
    ("spread.xvg.3", [(Some 0, Some 4); (Some (333 # 1000), Some 6)])], [])%string%Q.
Proof. vm_compute. reflexivity. Qed.
Lemma ex_shows : forall i f, nth_error ex_frames i = Some f -> shows_frame 60 ex_sopts ex_disk (fname "map_" (1 + Z.of_nat i) ".dat") f.
Proof.
  assert (exists b fi, flow_file 60 (Average.content ex_disk "map_00001.dat") = Ok (b, fi) /\ get_spreading_edges bM b fi (Some (ZQ 4)) (Some 1) 1 true None = Ok (Some (ZQ 2, ZQ 4)) /\ Flow.size fi = Some (ZQ 6, ZQ 2)) as A.
  { eexists. eexists. split; [vm_compute; reflexivity|]. split; vm_compute; reflexivity. }
  assert (exists b fi, flow_file 60 (Average.content ex_disk "map_00002.dat") = Ok (b, fi) /\ get_spreading_edges bM b fi (Some (ZQ 4)) (Some 1) 1 true None = Ok (Some (ZQ 4, 0)) /\ Flow.size fi = Some (ZQ 6, ZQ 2)) as B.
  { eexists. eexists. split; [vm_compute; reflexivity|]. split; vm_compute; reflexivity. }
  intros [|[|i]] f H; cbn in H; [| |destruct i; discriminate]; injection H as <-; (split; [reflexivity|]).
  - destruct A as (b & fi & A1 & A2 & A3). exists b, fi. split; [exact A1|]. split; [exact A2|]. exists (ZQ 2). exact A3.
  - destruct B as (b & fi & A1 & A2 & A3). exists b, fi. split; [exact A1|]. split; [exact A2|]. exists (ZQ 2). exact A3.
Qed.
(** All conditions of C74_true_radii hold. *)
Example C74_ex : exists d' ts rs ls xs,
  fst (fst (spreading_run 10 60 (spreading_header ex_info) ex_sopts (Q2Qc (1 # 3)) 0 ex_disk false "map_" (Some "spread.xvg"%string) ex_fo)) = d' /\
  read_spreading_data d' ["spread.xvg"%string] = ([mkSeries "spread.xvg.1" (points ts rs); mkSeries "spread.xvg.2" (points ts ls); mkSeries "spread.xvg.3" (points ts xs)], []) /\
  length ts = 2%nat /\ length rs = 2%nat /\ length ls = 2%nat /\ length xs = 2%nat /\
  forall k p, nth_error ex_traj k = Some p -> exists t r, nth_error ts k = Some t /\ nth_error rs k = Some r /\
    nearest_decimal 3 (0 + NQ k * Q2Qc (1 # 3)) t /\ nearest_decimal 3 (Q2Qc (1 # 2) * (snd p - fst p)) r.
Proof.
  apply (C74_true_radii 10 60 (spreading_header ex_info) ex_sopts (Q2Qc (1 # 3)) 0 ex_disk false "map_" "spread.xvg" ex_fo 2 ex_frames (ZQ 6) ex_traj).
  - unfold wf, keys. cbn. constructor; [|constructor; [intros []|constructor]]. intros [E|[]]. vm_compute in E. discriminate.
  - lia.
  - exact ex_run.
  - intros i Hi. assert (i = 0 \/ i = 1 \/ i = 2)%nat as [-> | [-> | ->]] by lia; vm_compute; discriminate.
  - intros j E. vm_compute in E. discriminate.
  - reflexivity.
  - exact ex_shows.
  - apply C74_header; lit.
  - intros i Hi. assert (i = 0 \/ i = 1)%nat as [-> | ->] by lia; lit.
  - apply qlt_true. vm_compute. reflexivity.
  - split; [|split; [|exact I]].
    + repeat constructor; try (apply qle_true; vm_compute; reflexivity); apply qlt_true; vm_compute; reflexivity.
    + split; apply qlt_true; vm_compute; reflexivity.
  - unfold SpreadingProps.observes, ex_frames, ex_traj. cbn [filter f_edges]. constructor; [|constructor; [|constructor]]; (split; [reflexivity|]).
    + exists (ZQ 2), (ZQ 4). split; [reflexivity|]. split; (split; [apply qle_true; reflexivity|split; [apply qlt_true; reflexivity|exists 0%Z; apply Qc_is_canon; reflexivity]]).
    + exists (ZQ 4), 0. split; [reflexivity|]. split; (split; [apply qle_true; reflexivity|split; [apply qlt_true; reflexivity|]]); [exists 0%Z|exists 1%Z]; apply Qc_is_canon; reflexivity.
  - cbn. lia.
Qed.

(** The file is scaled and saved in combined form; times are halved. *)
Definition ex_env : env := mkEnv (txt "strata.spreading.view") (txt "Mon Jan  1 12:00:00 2018") (txt "0.5") (txt "/home/user").
Definition ex_show : SpreadingView.curve -> bytes := decimal_lines 1 6.
Definition ex_seen (c : SpreadingView.curve) : SpreadingView.curve := map (fun p => (round_dec 1 (fst p), round_dec 6 (snd p))) c.
Example C75_ex : match view_spreading ex_saved ["spread.xvg"%string] None [Q2Qc (1 # 2)] [1; 1; ZQ 2] (Some (Some "comb.xvg"%string)) ex_env ex_show with
  | Ok (d', []) => let (ss, ws) := read_spreading_data d' ["comb.xvg"%string] in
                   map (fun s => (s_name s, map (fun p => match p with (Fin t, Fin r) => Some (this t, this r) | _ => None end) (s_points s))) ss =
                     [("comb.xvg.1", [Some (0, 1); Some (7 # 10, 1)]); ("comb.xvg.2", [Some (0, 2); Some (7 # 10, 4)]); ("comb.xvg.3", [Some (0, 2); Some (7 # 10, 3)])]%string%Q /\ ws = []
  | _ => False
  end.
Proof. vm_compute. split; reflexivity. Qed.
Example C75_ex_conditions : clean (e_module ex_env) /\ clean (e_date ex_env) /\ clean (e_version ex_env) /\ clean (e_cwd ex_env) /\ clean (bytes_of "spread.xvg") /\
  forall c, c <> [] -> exists seen, shows_points (ex_show c) seen.
Proof.
  repeat (split; [split; [lit|flit]|]). intros c Hc. destruct (C75_decimals 1 6 c) as (seen & H & _); [lia|lia|exact Hc|]. exists seen. exact H.
Qed.

(** A power law r = 2 sqrt(t) in a file with two columns. *)
Definition ex_law : disk := {| Utils.files := [(os_path "law.xvg", string_of (savetxt [txt "# t r"] [[1; ZQ 2]; [ZQ 4; ZQ 4]; [ZQ 9; ZQ 6]]))]; Utils.dirs := [] |}.
Definition law : SpreadingView.curve := [(1, ZQ 2); (ZQ 4, ZQ 4); (ZQ 9, ZQ 6)].
Lemma law_read : read_spreading_data ex_law ["law.xvg"%string] = ([mkSeries "law.xvg.1" (map (fun p => (Fin (fst p), Fin (snd p))) law)], []).
Proof. vm_compute. reflexivity. Qed.
Lemma law_points : fit_points law None = law. Proof. vm_compute. reflexivity. Qed.
Lemma law_two : two_times (fit_points law None).
Proof. rewrite law_points. exists (1, ZQ 2), (ZQ 4, ZQ 4). split; [left; reflexivity|]. split; [right; left; reflexivity|]. discriminate. Qed.
Lemma sqrt_pow x : (0 < x)%R -> Rpower (x * x) (/ 2) = x.
Proof. intros H. unfold Rpower. rewrite ln_mult by exact H. replace (/ 2 * (ln x + ln x))%R with (ln x) by field. apply exp_ln. exact H. Qed.
Example C76_ex : (exists params, fit_spreading_data ex_law ["law.xvg"%string] None params) /\
  forall params, fit_spreading_data ex_law ["law.xvg"%string] None params -> params = [(2, / 2)]%R.
Proof.
  split.
  - destruct (C59_unique_fit law None law_two) as (a & k & _ & HF & _). exists [(a, k)], [("law.xvg.1"%string, law)]. split; [rewrite law_read; vm_compute; reflexivity|]. constructor; [exact HF|constructor].
  - intros params HF. pose proof (C76_one_per_curve _ _ _ _ HF) as [L _]. rewrite law_read in L. cbn [fst length] in L.
    assert (nth_error params 0 = Some (2, / 2)%R) as E.
    { apply (C76_recovers ex_law ["law.xvg"%string] None params 0 (mkSeries "law.xvg.1" (map (fun p => (Fin (fst p), Fin (snd p))) law)) law 2 (/ 2) HF); [rewrite law_read; reflexivity|reflexivity|Lra.lra|exact law_two|]. rewrite law_points.
      assert (forall z, QR (ZQ z) = IZR z) as QZ by (intros z; unfold QR; rewrite this_ZQ; unfold Q2R, inject_Z; cbn; rewrite Rinv_1; ring).
      intros p Hp. cbn in Hp. destruct Hp as [<- | [<- | [<- | []]]]; cbn [fst snd]; rewrite ?QZ, ?QR_1.
      - replace 1%R with (1 * 1)%R at 1 by ring. rewrite sqrt_pow by Lra.lra. ring.
      - replace 4%R with (2 * 2)%R at 2 by ring. rewrite sqrt_pow by Lra.lra. ring.
      - replace 9%R with (3 * 3)%R by ring. rewrite sqrt_pow by Lra.lra. ring. }
    destruct params as [|p [|q params]]; try discriminate. cbn in E. injection E as ->. reflexivity.
Qed.
