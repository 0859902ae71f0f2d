(** Properties C50-C51: recognising formats, choosing a writer, converting files. *)
From Coq Require Import String Ascii Permutation.
From Verif.Base Require Import QcX Res Np Bytes Sums.
From Verif.Model Require Import Utils Text Gmx Simple Formats.
From Verif.Spec Require Import FilesSpec DiskSpec.
From Verif.Proofs Require Import UtilsDisk TextP GmxP GmxRoundP SimpleP FormatsP ConvertRunP.
From Verif.Props Require Import GmxProps SimpleProps.
Local Open Scope list_scope.

(** ** C50 *)
(** The gmx reader is chosen exactly for files which begin with one of the two magic words. *)
Theorem C50_gmx_iff_magic : forall file, guess_read_module (Some file) = GmxModule <->
  exists rest, file = txt "FORMAT GMX_FLOW_1" ++ rest \/ file = txt "FORMAT GMX_FLOW_2" ++ rest.
Proof. exact guess_gmx. Qed.
Print Assumptions C50_gmx_iff_magic.
Theorem C50_otherwise_simple : forall file, (forall rest, file <> Some (txt "FORMAT GMX_FLOW_1" ++ rest) /\ file <> Some (txt "FORMAT GMX_FLOW_2" ++ rest)) ->
  guess_read_module file = SimpleModule.
Proof.
  intros file H. destruct file as [b|]; [|reflexivity]. destruct (guess_read_module (Some b)) eqn:E; [|reflexivity]. exfalso.
  apply guess_gmx in E. destruct E as (r & [-> | ->]); destruct (H r) as [A B]; [apply A|apply B]; reflexivity.
Qed.
Print Assumptions C50_otherwise_simple.
(** Every file written by a writer is read by its reader (binary ones if the first
    position is below 2^26). *)
Theorem C50_gmx_files_recognised : forall d i file, gmx_write d i = Ok file -> guess_read_module (Some file) = GmxModule.
Proof. exact gmx_file_recognised. Qed.
Print Assumptions C50_gmx_files_recognised.
Theorem C50_plain_files_recognised : forall d file, simple_write false d = Ok file -> guess_read_module (Some file) = SimpleModule.
Proof.
  intros d file. unfold simple_write. destruct (rmapM _ _) as [cols|]; [|discriminate]. cbn [rbind]. destruct (table_rows cols) as [rows|]; [|discriminate]. cbn [rbind].
  intros E. injection E as <-. destruct (guess_read_module _) eqn:E; [|reflexivity]. exfalso. apply guess_gmx in E. destruct E as (r & [E|E]); cbn in E; discriminate.
Qed.
Print Assumptions C50_plain_files_recognised.
Lemma Forall2_len {A B} (R : A -> B -> Prop) l m : Forall2 R l m -> List.length l = List.length m.
Proof. induction 1; cbn; congruence. Qed.
Theorem C50_binary_files_recognised : forall d X file, get d "X" = Some X -> (forall x, hd_error X = Some x -> qabs x < ZQ (2 ^ 26)) ->
  simple_write true d = Ok file -> guess_read_module (Some file) = SimpleModule.
Proof.
  intros d X file GX HX. unfold simple_write. destruct (rmapM _ _) as [cols|] eqn:EC; [|discriminate]. cbn [rbind]. destruct (table_rows cols) as [rows|] eqn:ER; [|discriminate]. cbn [rbind].
  intros E. injection E as <-. apply (simple_recognised true).
  - apply rmapM_Forall2, Forall2_len in EC. destruct cols as [|c cols]; [discriminate|]. unfold table_rows in ER.
    destruct (forallb _ _); [|discriminate]. injection ER as <-. intros r Hr. apply in_map_iff in Hr. destruct Hr as (k & <- & _). cbn [List.length] in *. rewrite map_length. symmetry. exact EC.
  - apply rmapM_Forall2 in EC. inversion EC as [|? c ? cols' Hc HC]; subst. unfold key in Hc. rewrite GX in Hc. cbn in Hc. injection Hc as <-.
    unfold table_rows in ER. destruct (forallb _ _); [|discriminate]. injection ER as <-. destruct X as [|x X]; [discriminate|].
    intros r Hr. cbn in Hr. injection Hr as <-. cbn [map nth]. apply HX. reflexivity.
Qed.
Print Assumptions C50_binary_files_recognised.
(** Refuted without that condition: a binary file whose first positions spell the magic. *)
Definition magic_rows : list (list Qc) :=
  [map (fun k => match f32_value (le_value (firstn 4 (skipn (4 * k) (txt "FORMAT GMX_FLOW_1" ++ repeat (chr 0) 11)))) with Fin x => x | _ => 0 end) (seq 0 7)].
Theorem C50_magic_positions_refuted : exists d file, simple_write true d = Ok file /\ guess_read_module (Some file) = GmxModule.
Proof.
  exists (map (fun p => (fst p, [nth (snd p) (nth 0 magic_rows []) 0])) (combine simple_fields (seq 0 7))). eexists. split; [vm_compute; reflexivity|]. vm_compute. reflexivity.
Qed.
Print Assumptions C50_magic_positions_refuted.
(** The writer: by name; any other name is a KeyError, and nothing is written. *)
Theorem C50_write_dispatch : forall binary others d i,
  (forall ft, ~ In ft ["gmx"; "default"; "simple"; "simple_plain"]%string -> write (Some ft) binary others d i = Err KeyErr) /\
  (forall ft, ft = None \/ ft = Some "gmx"%string \/ ft = Some "default"%string -> forall info, write ft binary others d (Some info) = gmx_write d info) /\
  write (Some "simple"%string) binary false d i = simple_write binary d /\
  write (Some "simple_plain"%string) binary false d i = simple_write false d.
Proof.
  intros binary others d i. split; [|split; [|split; reflexivity]].
  - intros ft H. unfold write. cbn [In] in H.
    destruct (String.eqb_spec ft "gmx"); [subst; tauto|]. destruct (String.eqb_spec ft "default"); [subst; tauto|].
    destruct (String.eqb_spec ft "simple"); [subst; tauto|]. destruct (String.eqb_spec ft "simple_plain"); [subst; tauto|]. reflexivity.
  - intros ft [-> | [-> | ->]] info; reflexivity.
Qed.
Print Assumptions C50_write_dispatch.
(** The gmx writer cannot do without the grid information; the simple ones refuse other options. *)
Theorem C50_write_errors : forall binary others d i,
  (forall ft, ft = None \/ ft = Some "gmx"%string \/ ft = Some "default"%string -> write ft binary others d None = Err TypeErr) /\
  (forall ft, ft = "simple"%string \/ ft = "simple_plain"%string -> write (Some ft) binary true d i = Err TypeErr).
Proof. intros binary others d i. split; [intros ft [-> | [-> | ->]]; reflexivity|intros ft [-> | ->]; reflexivity]. Qed.
Print Assumptions C50_write_errors.
Example C50_nonvacuous : guess_read_module (Some (txt "FORMAT GMX_FLOW_2" ++ [chr 10])) = GmxModule /\ guess_read_module (Some (txt "FORMAT GMX_FLOW_3")) = SimpleModule /\
  guess_read_module (Some (txt "X Y N T M U V")) = SimpleModule.
Proof. split; [|split]; vm_compute; reflexivity. Qed.

(** ** C51 *)
(** *** Frames *)
(** For every set of files: the frames converted are those of the unbroken run of numbers, and
    each gets an output of the same number with its converted content, even if inputs and
    outputs are the same files.  No other existing file changes and no content is lost. *)
Theorem C51_frames_keep_numbers : forall ffuel fuel ft d base output o n, wf d ->
  let begin := match o_begin o with Some b => b | None => 1%Z end in
  let e := match o_end o with Some e => e | None => Inf end in
  let ext := match o_ext o with Some x => x | None => ".dat"%string end in
  let outext := match o_outext o with Some x => x | None => ext end in
  let oth := match o_outext o with Some _ => true | None => false end in
  let src k := os_path (fname base k ext) in let dst k := os_path (fname output k outext) in
  no_slash outext -> (n < ffuel)%nat ->
  run_length (fun z => match e with Upto m => (z <= m)%Z | Inf => True end /\ exists_path d (src z) = true) begin n ->
  (forall j k, (begin <= j < k)%Z -> (k < begin + Z.of_nat n)%Z -> dst j <> src k) ->
  (forall k, (begin <= k < begin + Z.of_nat n)%Z -> exists c out, lookup (files d) (src k) = Some c /\ convert_file fuel ft oth (Some (bytes_of c)) = Ok out) ->
  exists d', convert_all ffuel fuel ft d base output o = Ok d' /\ wf d' /\
    (forall k, (begin <= k < begin + Z.of_nat n)%Z -> exists c out, lookup (files d) (src k) = Some c /\
       convert_file fuel ft oth (Some (bytes_of c)) = Ok out /\ lookup (files d') (dst k) = Some (string_of out)) /\
    (forall q, exists_path d q = true -> (forall k, (begin <= k < begin + Z.of_nat n)%Z -> q <> dst k) -> lookup (files d') q = lookup (files d) q) /\
    exists written, List.length written = n /\ Permutation (contents d') (contents d ++ written).
Proof. exact convert_frames. Qed.
Print Assumptions C51_frames_keep_numbers.

(** *** Failures *)
(** If the conversion of a frame fails (its file cannot be read, or cannot be written in the format), the run ends with the exception: the outputs of the frames before
    it stay, no other file which existed changes and no content is lost; at most the old file at the name of this output is renamed. *)
Theorem C51_failing_frame : forall ffuel fuel ft d base output o n m, wf d ->
  let begin := match o_begin o with Some b => b | None => 1%Z end in
  let e := match o_end o with Some e => e | None => Inf end in
  let ext := match o_ext o with Some x => x | None => ".dat"%string end in
  let outext := match o_outext o with Some x => x | None => ext end in
  let oth := match o_outext o with Some _ => true | None => false end in
  let src k := os_path (fname base k ext) in let dst k := os_path (fname output k outext) in
  let last := (begin + Z.of_nat m)%Z in
  no_slash outext -> (n < ffuel)%nat ->
  run_length (fun z => match e with Upto m => (z <= m)%Z | Inf => True end /\ exists_path d (src z) = true) begin n ->
  (forall j k, (begin <= j < k)%Z -> (k < begin + Z.of_nat n)%Z -> dst j <> src k) -> (m < n)%nat ->
  (forall k, (begin <= k < last)%Z -> exists c out, lookup (files d) (src k) = Some c /\ convert_file fuel ft oth (Some (bytes_of c)) = Ok out) ->
  forall err, convert_file fuel ft oth (option_map bytes_of (lookup (files d) (src last))) = Err err ->
  exists d', convert_run ffuel fuel ft d base output o = (d', Some err) /\ wf d' /\
    (forall k, (begin <= k < last)%Z -> exists c out, lookup (files d) (src k) = Some c /\
       convert_file fuel ft oth (Some (bytes_of c)) = Ok out /\ lookup (files d') (dst k) = Some (string_of out)) /\
    (forall q, exists_path d q = true -> (forall k, (begin <= k <= last)%Z -> q <> dst k) -> lookup (files d') q = lookup (files d) q) /\
    exists written, List.length written = m /\ Permutation (contents d') (contents d ++ written).
Proof. exact run_frames. Qed.
Print Assumptions C51_failing_frame.
(** Without a failure the run is the one of C51_frames_keep_numbers. *)
Theorem C51_run_agrees : forall ffuel fuel ft d base output o, wf d ->
  (forall d', convert_run ffuel fuel ft d base output o = (d', None) <-> convert_all ffuel fuel ft d base output o = Ok d') /\
  (forall err, (exists d', convert_run ffuel fuel ft d base output o = (d', Some err)) <-> convert_all ffuel fuel ft d base output o = Err err).
Proof. intros ffuel fuel ft d base output o Hw. split; [intros d'; exact (run_iff _ _ _ _ _ _ _ _ Hw)|intros err; exact (run_err _ _ _ _ _ _ _ _ Hw)]. Qed.
Print Assumptions C51_run_agrees.

(** *** Bins and positions *)
(** A file holds the map with columns [G] on an [nx] by [ny] grid with the given information. *)
Definition holds (fuel : nat) (file : bytes) (nx ny : nat) (x0 y0 dx dy : Qc) (G : string -> list Qc) : Prop :=
  exists out i, read_data_file fuel (Some file) = Ok (out, i) /\
    map fst out = ["X"; "Y"; "N"; "T"; "M"; "U"; "V"]%string /\
    (forall l, In l ["X"; "Y"; "N"; "T"; "M"; "U"; "V"]%string -> get out l = Some (map Fin (G l)) /\ List.length (G l) = (nx * ny)%nat) /\
    i = mkMinfo (nx, ny) (Fin dx, Fin dy) (x0, y0).
Lemma holds_convert fuel file nx ny x0 y0 dx dy G ft oth : holds fuel file nx ny x0 y0 dx dy G ->
  convert_file fuel (Some ft) oth (Some file) = write (Some ft) true oth (plain_dict G) (Some (mkGinfo (Z.of_nat nx, Z.of_nat ny) (dx, dy) (x0, y0))).
Proof. intros (out & i & R & HF). eapply frame_convert; [exact R|exact HF]. Qed.

(** To the plain format: positions and grid are the same, values are rounded (to single
    precision, then six decimals), whatever the source. *)
Theorem C51_to_plain_partial : forall fuel file nx ny x0 y0 dx dy G X0 Y0, holds fuel file nx ny x0 y0 dx dy G ->
  simple_table (map (fun l => (l, G l)) ["X"; "Y"; "N"; "T"; "M"; "U"; "V"]%string) nx ny X0 Y0 dx dy G ->
  exists file' out i, convert_file fuel (Some "simple_plain"%string) false (Some file) = Ok file' /\
    read_data_file fuel (Some file') = Ok (out, i) /\ same_table as_text nx ny X0 Y0 dx dy G out i.
Proof.
  intros fuel file nx ny x0 y0 dx dy G X0 Y0 H HT. destruct (C48_plain_files_read_back _ _ _ _ _ _ _ _ HT) as (f & out & i & W & _ & R & S).
  exists f, out, i. rewrite (holds_convert _ _ _ _ _ _ _ _ _ _ _ H). split; [exact W|]. split; [|exact S]. unfold read_data_file.
  rewrite (C50_plain_files_recognised _ _ W). exact R.
Qed.
Print Assumptions C51_to_plain_partial.
(** To the binary format: the same if the file is recognised (C48). *)
Theorem C51_to_binary_partial : forall fuel file nx ny x0 y0 dx dy G X0 Y0, holds fuel file nx ny x0 y0 dx dy G ->
  simple_table (map (fun l => (l, G l)) ["X"; "Y"; "N"; "T"; "M"; "U"; "V"]%string) nx ny X0 Y0 dx dy G -> qabs X0 < ZQ (2 ^ 26) ->
  exists file', convert_file fuel (Some "simple"%string) false (Some file) = Ok file' /\
    (is_binary file' = true -> exists out i, read_data_file fuel (Some file') = Ok (out, i) /\ same_table as_single nx ny X0 Y0 dx dy G out i).
Proof.
  intros fuel file nx ny x0 y0 dx dy G X0 Y0 H HT HX. destruct (C48_binary_files_read_back_partial _ _ _ _ _ _ _ _ HT) as (f & W & R).
  exists f. rewrite (holds_convert _ _ _ _ _ _ _ _ _ _ _ H). split; [exact W|]. intros B. destruct (R B) as (out & i & R' & S). exists out, i. split; [|exact S].
  unfold read_data_file. assert (guess_read_module (Some f) = SimpleModule) as ->; [|exact R'].
  eapply C50_binary_files_recognised; [|  |exact W]; [reflexivity|]. intros x Hx. destruct HT as (_ & Hnx & Hny & _ & _ & EX & _). rewrite EX in Hx. destruct nx as [|nx]; [lia|]. destruct ny as [|ny]; [lia|]. cbn in Hx. injection Hx as <-.
  replace (X0 + NQ 0 * dx) with X0 by (rewrite NQ_0; ring). exact HX.
Qed.
Print Assumptions C51_to_binary_partial.

(** To the gmx format: the new positions follow from the grid information; values of bins
    with mass are kept to single precision, those of other bins are 0. *)
Definition on_six (x : Qc) : Prop := exists n, x = ZQ n / ZQ 1000000.
Definition as_gmx (nx ny : nat) (G : string -> list Qc) (out : dict (list ext)) : Prop :=
  forall l, In l ["N"; "T"; "M"; "U"; "V"]%string -> exists r, get out l = Some r /\ List.length r = (nx * ny)%nat /\
    forall p, (p < nx * ny)%nat ->
      (nth p (G "M"%string) 0 = 0 -> nth p r NaN = Fin 0) /\
      (nth p (G "M"%string) 0 <> 0 -> exists y, nth p r NaN = Fin y /\ as_single (nth p (G l) 0) y).
Lemma to_gmx fuel file nx ny x0 y0 dx dy G : holds fuel file nx ny x0 y0 dx dy G ->
  on_six x0 -> on_six y0 -> on_six dx -> on_six dy -> (Z.of_nat nx < 2 ^ 64)%Z -> (Z.of_nat ny < 2 ^ 64)%Z ->
  (forall l v, In l ["N"; "T"; "M"; "U"; "V"]%string -> In v (G l) -> qabs v <= single_max) ->
  (29 <= filled (G "M"%string) \/ filled (G "M"%string) = 0)%nat ->
  exists file', convert_file fuel (Some "gmx"%string) false (Some file) = Ok file' /\
    forall fuel', (List.length file' < fuel')%nat -> exists out,
      read_data_file fuel' (Some file') = Ok (out, mkMinfo (nx, ny) (Fin dx, Fin dy) (x0, y0)) /\
      get out "X" = Some (grid nx ny (fun a _ => Fin (x0 + dx * (NQ a + Q2Qc (1 # 2))))) /\
      get out "Y" = Some (grid nx ny (fun _ b => Fin (y0 + dy * (NQ b + Q2Qc (1 # 2))))) /\ as_gmx nx ny G out.
Proof.
  intros H [n1 E1] [n2 E2] [n3 E3] [n4 E4] Hx Hy HB HM. rewrite (holds_convert _ _ _ _ _ _ _ _ _ _ _ H). cbn [write String.eqb Ascii.eqb Bool.eqb orb].
  destruct H as (out0 & i0 & _ & _ & HG & _).
  set (i := mkGinfo (Z.of_nat nx, Z.of_nat ny) (dx, dy) (x0, y0)).
  assert (storable (plain_dict G) i nx ny G) as HS.
  { split; [reflexivity|]. split; [exact Hx|]. split; [exact Hy|]. intros l Hl. assert (In l simple_fields) as Hl' by (cbn in *; tauto).
    split; [apply get_plain; exact Hl'|]. split; [apply (HG l Hl')|]. intros v. apply HB. exact Hl. }
  destruct (C46_files_read_back_partial _ _ _ _ _ HS HM) as (f & W & R). exists f. split; [exact W|]. intros fuel' Hf.
  destruct (R fuel' Hf) as (out & i' & R' & RB). exists out. pose proof (gmx_read_facts _ _ _ _ R') as (_ & GX & GY & _).
  destruct RB as (_ & Rs & [_ D1] & [_ D2] & [_ O1] & [_ O2] & _ & RV). cbn [i g_shape g_spacing g_origin fst snd] in *.
  specialize (D1 _ E3). specialize (D2 _ E4). specialize (O1 _ E1). specialize (O2 _ E2).
  rewrite Rs in GX, GY. cbn [fst snd] in GX, GY. rewrite !Nat2Z.id in GX, GY. rewrite D1, O1 in GX. rewrite D2, O2 in GY.
  split; [|split; [exact GX|split; [exact GY|]]].
  - unfold read_data_file. rewrite (C50_gmx_files_recognised _ _ _ W), R'. cbn [rbind]. rewrite Rs. cbn [fst snd]. rewrite !Nat2Z.id, D1, D2.
    rewrite <- O1, <- O2. destruct (g_origin i'). reflexivity.
  - intros l Hl. destruct (RV l Hl) as (r & Gr & Lr & Vr). exists r. split; [exact Gr|]. split; [exact Lr|]. intros p Hp. destruct (Vr p Hp) as [A B]. split; [exact A|].
    intros N. destruct (B N) as (y & Y1 & Y2 & _ & Y3). exists y. split; [exact Y1|]. split; assumption.
Qed.
(** From gmx files: the same bins at the same positions, with exactly the same values where there is mass. *)
Theorem C51_gmx_to_gmx_partial : forall fuel file nx ny x0 y0 dx dy G, guess_read_module (Some file) = GmxModule -> holds fuel file nx ny x0 y0 dx dy G ->
  on_six x0 -> on_six y0 -> on_six dx -> on_six dy -> (Z.of_nat nx < 2 ^ 64)%Z -> (Z.of_nat ny < 2 ^ 64)%Z ->
  (29 <= filled (G "M"%string) \/ filled (G "M"%string) = 0)%nat ->
  exists file', convert_file fuel (Some "gmx"%string) false (Some file) = Ok file' /\
    forall fuel', (List.length file' < fuel')%nat -> exists out,
      read_data_file fuel' (Some file') = Ok (out, mkMinfo (nx, ny) (Fin dx, Fin dy) (x0, y0)) /\
      get out "X" = Some (map Fin (G "X"%string)) /\ get out "Y" = Some (map Fin (G "Y"%string)) /\
      forall l, In l ["N"; "T"; "M"; "U"; "V"]%string -> exists r, get out l = Some (map Fin r) /\ List.length r = (nx * ny)%nat /\
        forall p, (p < nx * ny)%nat -> nth p r 0 = if qeq (nth p (G "M"%string) 0) 0 then 0 else nth p (G l) 0.
Proof.
  intros fuel file nx ny x0 y0 dx dy G HM H O1 O2 D1 D2 Sx Sy HF. pose proof H as (out0 & i0 & R & K & HG & Ei).
  unfold read_data_file in R. rewrite HM in R. destruct (gmx_read fuel file) as [[o g]|] eqn:ER; [|discriminate]. cbn [rbind] in R. injection R as -> Eg. rewrite Ei in Eg.
  pose proof (gmx_read_facts _ _ _ _ ER) as (_ & GX & GY & SG & _). injection Eg as E1 E2 E3 E4 E5. rewrite E1, E2, E3, E5 in GX. rewrite E1, E2, E4, E5 in GY. cbn [fst snd] in GX, GY.
  assert (forall l v, In l ["N"; "T"; "M"; "U"; "V"]%string -> In v (G l) -> is_single v) as HS.
  { intros l v Hl Hv. assert (In l ["X"; "Y"; "N"; "T"; "M"; "U"; "V"]%string) as Hl' by (cbn in *; tauto). destruct (HG l Hl') as [Gl _].
    apply (SG l _ v Hl Gl). apply in_map. exact Hv. }
  destruct (to_gmx fuel file nx ny x0 y0 dx dy G H O1 O2 D1 D2 Sx Sy) as (f & C & RF); [intros l v Hl Hv; apply single_le_max, (HS l v Hl Hv)|exact HF|].
  exists f. split; [exact C|]. intros fuel' Hf. destruct (RF fuel' Hf) as (out & R' & X' & Y' & V). exists out. split; [exact R'|].
  destruct (HG "X"%string ltac:(cbn; tauto)) as [GX' _]. destruct (HG "Y"%string ltac:(cbn; tauto)) as [GY' _].
  rewrite GX in GX'. rewrite GY in GY'. split; [rewrite X'; exact GX'|]. split; [rewrite Y'; exact GY'|].
  intros l Hl. destruct (V l Hl) as (r & Gr & Lr & Vr).
  set (val := fun p => if qeq (nth p (G "M"%string) 0) 0 then 0 else nth p (G l) 0).
  exists (map val (seq 0 (nx * ny))). split; [|split].
  - rewrite Gr. f_equal. apply nth_ext with NaN (Fin 0); [rewrite !map_length, seq_length; exact Lr|]. intros p Hp. rewrite Lr in Hp.
    rewrite map_map. rewrite (nth_indep _ (Fin 0) ((fun x => Fin (val x)) 0%nat)) by (rewrite map_length, seq_length; exact Hp). rewrite (map_nth (fun x => Fin (val x))), seq_nth by exact Hp. cbn [Nat.add].
    destruct (Vr p Hp) as [V0 V1]. unfold val. destruct (qeq _ 0) eqn:Q; [apply V0, qeq_true; exact Q|].
    destruct V1 as (y & -> & _ & Ey). { intros Z. rewrite Z, qeq_refl in Q. discriminate. }
    f_equal. apply Ey. apply (HS l); [exact Hl|]. apply nth_In. assert (In l ["X"; "Y"; "N"; "T"; "M"; "U"; "V"]%string) as Hl' by (cbn in *; tauto). rewrite (proj2 (HG l Hl')). exact Hp.
  - rewrite map_length, seq_length. reflexivity.
  - intros p Hp. rewrite (nth_indep _ 0 (val 0%nat)) by (rewrite map_length, seq_length; exact Hp). rewrite map_nth, seq_nth by exact Hp. reflexivity.
Qed.
Print Assumptions C51_gmx_to_gmx_partial.
(** Refuted for the conversion from a simple format to gmx: every bin is moved by half a bin. *)
Theorem C51_simple_to_gmx_shifts_refuted : forall fuel file nx ny x0 y0 dx dy G, guess_read_module (Some file) = SimpleModule -> holds fuel file nx ny x0 y0 dx dy G ->
  on_six x0 -> on_six y0 -> on_six dx -> on_six dy -> (Z.of_nat nx < 2 ^ 64)%Z -> (Z.of_nat ny < 2 ^ 64)%Z ->
  (forall l v, In l ["N"; "T"; "M"; "U"; "V"]%string -> In v (G l) -> qabs v <= single_max) ->
  (29 <= filled (G "M"%string) \/ filled (G "M"%string) = 0)%nat ->
  exists file', convert_file fuel (Some "gmx"%string) false (Some file) = Ok file' /\
    forall fuel', (List.length file' < fuel')%nat -> exists out i, read_data_file fuel' (Some file') = Ok (out, i) /\
      get out "X" = Some (map (fun x => Fin (x + dx / ZQ 2)) (G "X"%string)) /\ get out "Y" = Some (map (fun y => Fin (y + dy / ZQ 2)) (G "Y"%string)).
Proof.
  intros fuel file nx ny x0 y0 dx dy G HM H O1 O2 D1 D2 Sx Sy HB HF. pose proof H as (out0 & i0 & R & K & HG & Ei).
  unfold read_data_file in R. rewrite HM in R. pose proof (simple_read_positions _ _ _ R) as GP. rewrite Ei in GP. cbn [m_shape m_origin m_spacing fst snd along] in GP. destruct GP as [GX GY].
  destruct (to_gmx fuel file nx ny x0 y0 dx dy G H O1 O2 D1 D2 Sx Sy HB HF) as (f & C & RF). exists f. split; [exact C|]. intros fuel' Hf.
  destruct (RF fuel' Hf) as (out & R' & X' & Y' & V). exists out. eexists. split; [exact R'|].
  destruct (HG "X"%string ltac:(cbn; tauto)) as [GX' _]. destruct (HG "Y"%string ltac:(cbn; tauto)) as [GY' _].
  rewrite GX in GX'. rewrite GY in GY'. injection GX' as EX. injection GY' as EY.
  assert (forall (F : nat -> nat -> Qc) (v : list Qc) (h : Qc), grid nx ny (fun a b => Fin (F a b)) = map Fin v -> map (fun x => Fin (x + h)) v = grid nx ny (fun a b => Fin (F a b + h))) as Sh.
  { intros F v h E. assert (v = grid nx ny F) as ->.
    { assert (map Fin v = map Fin (grid nx ny F)) as E' by (rewrite grid_map; symmetry; exact E).
      revert E'. generalize (grid nx ny F). clear. induction v as [|x v IH]; intros [|y w] E; try discriminate; [reflexivity|]. cbn in E. injection E as -> E. f_equal. apply IH. exact E. }
    rewrite grid_map. reflexivity. }
  split.
  - rewrite X'. f_equal. rewrite (Sh (fun a _ => x0 + dx * NQ a) _ _ EX). apply grid_ext. intros a b _ _. f_equal. unfold Qcdiv. change (/ ZQ 2) with (Q2Qc (1 # 2)). ring.
  - rewrite Y'. f_equal. rewrite (Sh (fun _ b => y0 + dy * NQ b) _ _ EY). apply grid_ext. intros a b _ _. f_equal. unfold Qcdiv. change (/ ZQ 2) with (Q2Qc (1 # 2)). ring.
Qed.
Print Assumptions C51_simple_to_gmx_shifts_refuted.
(** Refuted: giving an output extension makes conversion to the simple formats fail. *)
Theorem C51_outext_refuted : forall fuel file ft nx ny x0 y0 dx dy G, holds fuel file nx ny x0 y0 dx dy G -> ft = "simple"%string \/ ft = "simple_plain"%string ->
  convert_file fuel (Some ft) true (Some file) = Err TypeErr.
Proof. intros fuel file ft nx ny x0 y0 dx dy G H HT. rewrite (holds_convert _ _ _ _ _ _ _ _ _ _ _ H). apply (proj2 (C50_write_errors true true (plain_dict G) _)). exact HT. Qed.
Print Assumptions C51_outext_refuted.

(** *** Non-vacuity *)
Definition number (v : ext) : Qc := match v with Fin x => x | _ => 0 end.
Definition is_number (v : ext) : bool := match v with Fin _ => true | _ => false end.
Lemma numbers_map v : forallb is_number v = true -> map Fin (map number v) = v.
Proof. induction v as [|[x| | |] v IH]; cbn; try discriminate; [reflexivity|]. intros H. rewrite (IH H). reflexivity. Qed.
Definition read_columns (fuel : nat) (file : bytes) (l : string) : list Qc :=
  match read_data_file fuel (Some file) with Ok (out, _) => match get out l with Some v => map number v | None => [] end | Err _ => [] end.
(** A decision procedure for [holds]. *)
Definition holds_b (fuel : nat) (file : bytes) (nx ny : nat) (x0 y0 dx dy : Qc) : bool :=
  match read_data_file fuel (Some file) with
  | Ok (out, i) => forallb (fun p => String.eqb (fst p) (snd p)) (combine (map fst out) simple_fields) && Nat.eqb (List.length out) 7 &&
      forallb (fun l => match get out l with Some v => forallb is_number v && Nat.eqb (List.length v) (nx * ny) | None => false end) simple_fields &&
      Nat.eqb (fst (m_shape i)) nx && Nat.eqb (snd (m_shape i)) ny && qeq (fst (m_origin i)) x0 && qeq (snd (m_origin i)) y0 &&
      match m_spacing i with (Fin a, Fin b) => qeq a dx && qeq b dy | _ => false end
  | Err _ => false
  end%bool.
Lemma holds_b_ok fuel file nx ny x0 y0 dx dy : holds_b fuel file nx ny x0 y0 dx dy = true -> holds fuel file nx ny x0 y0 dx dy (read_columns fuel file).
Proof.
  unfold holds_b, holds, read_columns. destruct (read_data_file fuel (Some file)) as [[out i]|]; [|discriminate]. rewrite !Bool.andb_true_iff.
  intros (((((((K & L) & F) & S1) & S2) & O1) & O2) & D). exists out, i. split; [reflexivity|]. split; [|split].
  - apply Nat.eqb_eq in L. do 7 (destruct out as [|[? ?] out]; [discriminate|]). destruct out; [|discriminate]. cbn in K. rewrite !Bool.andb_true_iff in K.
    destruct K as (K1 & K2 & K3 & K4 & K5 & K6 & K7 & _). apply String.eqb_eq in K1, K2, K3, K4, K5, K6, K7. cbn. congruence.
  - intros l Hl. rewrite forallb_forall in F. specialize (F l Hl). destruct (get out l) as [v|]; [|discriminate]. apply Bool.andb_true_iff in F. destruct F as [F1 F2].
    rewrite (numbers_map v F1). split; [reflexivity|]. rewrite map_length. apply Nat.eqb_eq. exact F2.
  - destruct i as [[sx sy] [[dx'| | |] [dy'| | |]] [ox oy]]; try discriminate. cbn [m_shape m_origin m_spacing fst snd] in *.
    apply Nat.eqb_eq in S1, S2. apply qeq_true in O1, O2. apply Bool.andb_true_iff in D. destruct D as [D1 D2]. apply qeq_true in D1, D2. congruence.
Qed.
(** A gmx file with 30 filled bins ... *)
Definition wide_map : dict (list Qc) := map (fun l => (l, repeat (ZQ (Z.of_nat (String.length l))) 30)) ["N"; "T"; "M"; "U"; "V"]%string.
Definition wide_file : bytes := match gmx_write wide_map (mkGinfo (10, 3)%Z (Q2Qc (1 # 4), Q2Qc (1 # 2)) (1, ZQ (-2))) with Ok f => f | Err _ => [] end.
Example C51_gmx_nonvacuous : guess_read_module (Some wide_file) = GmxModule /\
  holds 9 wide_file 10 3 1 (ZQ (-2)) (Q2Qc (1 # 4)) (Q2Qc (1 # 2)) (read_columns 9 wide_file) /\
  on_six 1 /\ on_six (ZQ (-2)) /\ on_six (Q2Qc (1 # 4)) /\ on_six (Q2Qc (1 # 2)) /\ (29 <= filled (read_columns 9 wide_file "M"))%nat.
Proof.
  split; [vm_compute; reflexivity|]. split; [apply holds_b_ok; vm_compute; reflexivity|].
  split; [exists 1000000%Z; apply Qc_is_canon; reflexivity|]. split; [exists (-2000000)%Z; apply Qc_is_canon; reflexivity|].
  split; [exists 250000%Z; apply Qc_is_canon; reflexivity|]. split; [exists 500000%Z; apply Qc_is_canon; reflexivity|].
  apply Nat.leb_le. vm_compute. reflexivity.
Qed.
(** ... and a plain file. *)
Definition small_text : string := "X Y N T M U V
0.0 0.0 1 300 18.25 0.5 0
0.0 0.5 0 0 0 0 0
0.25 0.0 2 301 36 -0.125 1
0.25 0.5 0 0 0 0 0
"%string.
Example C51_simple_nonvacuous : guess_read_module (Some (bytes_of small_text)) = SimpleModule /\
  holds 9 (bytes_of small_text) 2 2 0 0 (Q2Qc (1 # 4)) (Q2Qc (1 # 2)) (read_columns 9 (bytes_of small_text)).
Proof. split; [vm_compute; reflexivity|]. apply holds_b_ok. vm_compute. reflexivity. Qed.
(** Two frames on a disk. *)
Definition two_frames : disk := {| files := [(("in", "map_00001.dat"), small_text); (("in", "map_00002.dat"), small_text); (("out", "flow_00002.dat"), "old")]%string; dirs := ["in"; "out"]%string |}.
Definition opts0 : fopts := {| o_begin := None; o_end := None; o_ext := None; o_outext := None |}.
Example C51_frames_nonvacuous : wf two_frames /\
  run_length (fun z => True /\ exists_path two_frames (os_path (fname "in/map_" z ".dat")) = true) 1 2 /\
  exists d', convert_all 9 9 (Some "simple_plain"%string) two_frames "in/map_" "out/flow_" opts0 = Ok d' /\
    map fst (files d') = [("out", "flow_00002.dat"); ("out", "#flow_00002.dat.1#"); ("out", "flow_00001.dat"); ("in", "map_00001.dat"); ("in", "map_00002.dat")]%string.
Proof.
  split; [unfold wf, keys; cbn; repeat constructor; cbn; intuition discriminate|]. split.
  - split; [|intros [_ H]; vm_compute in H; discriminate]. intros k Hk. split; [exact I|]. assert (k = 0 \/ k = 1)%Z as [-> | ->] by (change (Z.of_nat 2) with 2%Z in Hk; lia); vm_compute; reflexivity.
  - eexists. split; [vm_compute; reflexivity|]. reflexivity.
Qed.
(** The second frame is not a map: the first output stays, the old second one is renamed only if the file could be read. *)
Definition broken_frame : disk := {| files := [(("in", "map_00001.dat"), small_text); (("in", "map_00002.dat"), "X Y
0 zero
"); (("out", "flow_00002.dat"), "old")]%string; dirs := ["in"; "out"]%string |}.
Example C51_failing_nonvacuous : wf broken_frame /\
  run_length (fun z => True /\ exists_path broken_frame (os_path (fname "in/map_" z ".dat")) = true) 1 2 /\
  (exists e, convert_file 9 (Some "simple_plain"%string) false (option_map bytes_of (lookup (files broken_frame) (os_path (fname "in/map_" 2 ".dat")))) = Err e) /\
  map fst (files (fst (convert_run 9 9 (Some "simple_plain"%string) broken_frame "in/map_" "out/flow_" opts0))) =
    [("out", "flow_00001.dat"); ("in", "map_00001.dat"); ("in", "map_00002.dat"); ("out", "flow_00002.dat")]%string.
Proof.
  split; [unfold wf, keys; cbn; repeat constructor; cbn; intuition discriminate|]. split; [|split].
  - split; [|intros [_ H]; vm_compute in H; discriminate]. intros k Hk. split; [exact I|]. assert (k = 0 \/ k = 1)%Z as [-> | ->] by (change (Z.of_nat 2) with 2%Z in Hk; lia); vm_compute; reflexivity.
  - eexists. vm_compute. reflexivity.
  - vm_compute. reflexivity.
Qed.
