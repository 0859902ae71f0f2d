(** Property C80: samples of interface files. *)
From Coq Require Import String Ascii Permutation Reals.
From Verif.Base Require Import QcX QcR Res Np Bytes.
From Verif.Model Require Utils Flow Average InterfaceSample.
From Verif.Model Require Import Bins Text Gmx Simple Formats Table RealText InterfaceFiles SampleFiles.
From Verif.Spec Require Import FilesSpec DiskSpec TableSpec RealTextSpec PolygonSpec LengthSpec.
From Verif.Proofs Require Import UtilsFiles UtilsDisk UtilsTop TextP SimpleP FormatsP TableP RealTextP InterfaceFilesP InterfaceSampleP SpreadingFilesP SampleFilesP.
From Verif.Props Require Import InterfaceSampleProps.
From Verif.Props Require InterfaceFilesProps.
Import InterfaceFilesProps(one_line, stored).
Import Utils(disk, path, files, lookup, fopts, exists_path, fname, bound, Upto, Inf, o_begin, o_end, o_ext, o_outext).
Local Open Scope list_scope.
Local Notation length := List.length.

(** ** What a file shows *)
(** The points in a file: two or more lines of two numbers. *)
Definition points_in (d : disk) (name : string) (pts : list (Qc * Qc)) : Prop :=
  exists f, Average.content d name = Some f /\ unpack2 f = Ok (inl (map (fun p => Fin (fst p)) pts, map (fun p => Fin (snd p)) pts)).
(** A file with a single line of two numbers. *)
Definition one_point_in (d : disk) (name : string) : Prop := exists f x y, Average.content d name = Some f /\ unpack2 f = Ok (inr (x, y)).
(** The value of the variable for the points: the area (C36) or the length of the path along them. *)
Definition measured (variable : string) (pts : list (Qc * Qc)) (v : R) : Prop :=
  variable = "area"%string /\ (exists a, area_of pts = Ok a /\ v = QR a) \/
  variable = "length"%string /\ v = path_length (map (fun p => (QR (fst p), QR (snd p))) pts).
(** What becomes of a file: a value, or nothing as its points are not those of an interface. *)
Definition shows_sample (d : disk) (name variable : string) (v : option R) : Prop :=
  match v with
  | Some v => exists pts, points_in d name pts /\ measured variable pts v
  | None => variable = "area"%string /\ (one_point_in d name \/ exists pts, points_in d name pts /\ area_of pts = Err TypeErr)
  end.
(** A file which ends the run, and the exception. *)
Definition ends_run (d : disk) (name variable : string) (err : exn) : Prop :=
  Average.content d name = None /\ err = OSErr \/
  (exists f, Average.content d name = Some f /\ unpack2 f = Err err) \/
  (one_point_in d name /\ variable <> "area"%string /\ err = ValueErr) \/
  (exists pts, points_in d name pts /\
    (variable = "area"%string /\ area_of pts = Err err /\ err <> TypeErr \/
     variable <> "area"%string /\ variable <> "length"%string /\ err = ValueErr)).

Lemma split_points pts : map (fun p : Qc * Qc => Fin (fst p)) pts = map Fin (map fst pts) /\ map (fun p : Qc * Qc => Fin (snd p)) pts = map Fin (map snd pts).
Proof. split; rewrite map_map; reflexivity. Qed.
Lemma area_step dt i f pts : unpack2 f = Ok (inl (map (fun p => Fin (fst p)) pts, map (fun p => Fin (snd p)) pts)) ->
  interface_step "area" dt i (Some f) = match area_of pts with Ok a => Row (NQ i * dt, QR a) (sample_line (NQ i * dt) (QR a)) | Err TypeErr => Skip | Err e => Stop e end.
Proof.
  intros H. unfold interface_step. rewrite H. destruct (split_points pts) as [-> ->]. unfold sample_variable. change (String.eqb "area" "area") with true. cbv iota.
  rewrite !rmapM_Fin. cbn [rbind]. unfold area_of. destruct (InterfaceSample.get_area_of_interface (map fst pts) (map snd pts)) as [a|e]; cbn [rmap]; [reflexivity|destruct e; reflexivity].
Qed.
Lemma length_step dt i f pts : unpack2 f = Ok (inl (map (fun p => Fin (fst p)) pts, map (fun p => Fin (snd p)) pts)) ->
  interface_step "length" dt i (Some f) = let v := path_length (map (fun p => (QR (fst p), QR (snd p))) pts) in Row (NQ i * dt, v) (sample_line (NQ i * dt) v).
Proof.
  intros H. unfold interface_step. rewrite H. destruct (split_points pts) as [-> ->]. unfold sample_variable. change (String.eqb "length" "area") with false. change (String.eqb "length" "length") with true. cbv iota.
  rewrite !rmapM_Fin. cbn [rbind]. rewrite <- C37_sum_of_segments. unfold length_of. rewrite !map_map. reflexivity.
Qed.
Lemma shows_step d name variable v dt i : shows_sample d name variable v ->
  interface_step variable dt i (Average.content d name) = as_outcome (option_map (fun v => ((NQ i * dt, v), sample_line (NQ i * dt) v)) v).
Proof.
  destruct v as [v|]; cbn [shows_sample option_map as_outcome].
  - intros (pts & (f & -> & HU) & [[-> (a & HA & ->)] | [-> ->]]); [rewrite (area_step dt i f pts HU), HA; reflexivity|exact (length_step dt i f pts HU)].
  - intros [-> [(f & x & y & -> & HU) | (pts & (f & -> & HU) & HA)]]; [|rewrite (area_step dt i f pts HU), HA; reflexivity].
    unfold interface_step. rewrite HU. reflexivity.
Qed.
Lemma ends_step d name variable err dt i : ends_run d name variable err -> interface_step variable dt i (Average.content d name) = Stop err.
Proof.
  intros [[-> ->] | [(f & -> & HU) | [((f & x & y & -> & HU) & NV & ->) | (pts & (f & -> & HU) & [(-> & HA & NE) | (NA & NL & ->)])]]].
  - reflexivity.
  - unfold interface_step. rewrite HU. reflexivity.
  - unfold interface_step. rewrite HU. unfold sample_variable. destruct (String.eqb_spec variable "area"); [contradiction|]. destruct (String.eqb variable "length"); reflexivity.
  - rewrite (area_step dt i f pts HU), HA. destruct err; try reflexivity. contradiction.
  - unfold interface_step. rewrite HU. unfold sample_variable. destruct (split_points pts) as [-> ->]. rewrite !rmapM_Fin.
    destruct (String.eqb_spec variable "area"); [contradiction|]. destruct (String.eqb_spec variable "length"); [contradiction|]. reflexivity.
Qed.
(** Every file with numbers is one or the other. *)
Theorem C80_sample_or_error : forall d name variable,
  (forall f, Average.content d name = Some f -> forall xs ys, unpack2 f = Ok (inl (xs, ys)) -> (exists qs, xs = map Fin qs) /\ exists qs, ys = map Fin qs) ->
  (exists v, shows_sample d name variable v) \/ exists err, ends_run d name variable err.
Proof.
  intros d name variable HF. unfold ends_run. destruct (Average.content d name) as [f|] eqn:HC; [|right; exists OSErr; left; auto].
  specialize (HF f eq_refl). destruct (unpack2 f) as [[[xs ys]|[x y]]|err] eqn:HU; [| |right; exists err; right; left; exists f; auto].
  - destruct (HF xs ys eq_refl) as [[px ->] [py ->]].
    assert (length px = length py) as HL.
    { unfold unpack2 in HU. destruct (genfromtxt f) as [rows|]; [|discriminate]. cbn [rbind] in HU.
      assert (forall a b : list ext, (Ok (inl (a, b)) : res ((list ext * list ext) + (ext * ext))) = Ok (inl (map Fin px, map Fin py)) -> length a = length b -> length px = length py) as K.
      { intros a b H L. injection H as -> ->. rewrite !map_length in L. exact L. }
      destruct rows as [|r1 rows]; [discriminate|]. destruct r1 as [|a r1].
      - destruct rows as [|r2 rows]; discriminate.
      - destruct r1 as [|b r1].
        + destruct rows as [|[|c [|c' r2]] [|r3 rows]]; discriminate.
        + destruct r1 as [|c r1]; [|destruct rows; discriminate]. destruct rows as [|r2 rows]; [discriminate|]. apply (K _ _ HU). rewrite !map_length. reflexivity. }
    set (pts := combine px py). assert (map fst pts = px) as EX by (unfold pts; clear -HL; revert py HL; induction px as [|a px IH]; intros [|b py] H; cbn in *; try discriminate; [reflexivity|f_equal; apply IH; injection H as H; exact H]).
    assert (map snd pts = py) as EY by (unfold pts; clear -HL; revert px HL; induction py as [|a py IH]; intros [|b px] H; cbn in *; try discriminate; [reflexivity|f_equal; apply IH; injection H as H; exact H]).
    assert (points_in d name pts) as HP. { exists f. split; [exact HC|]. destruct (split_points pts) as [-> ->]. rewrite EX, EY. exact HU. }
    destruct (String.eqb_spec variable "area") as [->|NA].
    + destruct (area_of pts) as [a|err] eqn:HA; [left; exists (Some (QR a)), pts; split; [exact HP|left; split; [reflexivity|exists a; auto]]|].
      destruct err eqn:HE; try (right; eexists; do 3 right; exists pts; split; [exact HP|left; split; [reflexivity|]; split; [exact HA|discriminate]]).
      left. exists None. split; [reflexivity|right; exists pts; auto].
    + destruct (String.eqb_spec variable "length") as [->|NL]; [left; eexists (Some _), pts; split; [exact HP|right; split; reflexivity]|].
      right. exists ValueErr. do 3 right. exists pts. split; [exact HP|right; auto].
  - destruct (String.eqb_spec variable "area") as [->|NA]; [left; exists None; split; [reflexivity|left; exists f, x, y; auto]|].
    right. exists ValueErr. do 2 right. left. split; [exists f, x, y; auto|auto].
Qed.
Print Assumptions C80_sample_or_error.
(** The points of an interface (C36): the area sampled from a file of them is that of their polygon. *)
Theorem C80_polygon_area : forall d name ls v, points_in d name (polygon ls) -> shows_sample d name "area" v ->
  exists a, v = Some (QR a) /\ (1 + 1) * a = - twice_area (polygon ls).
Proof.
  intros d name ls v (f & HC & HU) HS. pose proof (shows_step d name "area" v 1 0 HS) as K. rewrite HC, (area_step _ _ _ _ HU) in K.
  destruct (C36_polygon_area ls) as (a & HA & HT). rewrite HA in K. exists a. split; [|exact HT]. destruct v as [v|]; cbn [option_map as_outcome] in K; [|discriminate].
  f_equal. assert (forall (r r' : Qc * R) t t', @Row _ exn r t = Row r' t' -> snd r = snd r') as G by (intros r r' t t' H; congruence). symmetry. exact (G _ _ _ _ K).
Qed.
Print Assumptions C80_polygon_area.

(** ** The run *)
(** The rows: number i of the files gives time i * dt, also after files left out. *)
Definition rows_of_samples (dt : Qc) (samples : list (option R)) : list (Qc * R) :=
  flat_map (fun p => match snd p with Some v => [(NQ (fst p) * dt, v)] | None => [] end) (combine (seq 0 (length samples)) samples).
Lemma rows_in_samples dt samples :
  let outs := map (fun p => option_map (fun v => ((NQ (fst p) * dt, v), sample_line (NQ (fst p) * dt) v)) (snd p)) (combine (seq 0 (length samples)) samples) in
  rows_in outs = rows_of_samples dt samples /\ text_in outs = flat_map (fun r => sample_line (fst r) (snd r)) (rows_of_samples dt samples) /\ length outs = length samples /\
  forall k x, nth_error outs k = Some x -> exists v, nth_error samples k = Some v /\ x = option_map (fun v => ((NQ k * dt, v), sample_line (NQ k * dt) v)) v.
Proof.
  intros outs. subst outs. unfold rows_of_samples, rows_in, text_in. split; [|split; [|split]].
  - induction (combine (seq 0 (length samples)) samples) as [|[i v] l IH]; [reflexivity|]. cbn [map flat_map fst snd]. destruct v; cbn [option_map app]; rewrite IH; reflexivity.
  - induction (combine (seq 0 (length samples)) samples) as [|[i v] l IH]; [reflexivity|]. cbn [map flat_map fst snd]. destruct v; cbn [option_map app flat_map]; rewrite IH; reflexivity.
  - rewrite map_length, combine_length, seq_length. apply Nat.min_id.
  - intros k x H. rewrite nth_error_map in H. 
    assert (forall l : list (option R), forall s j, nth_error (combine (seq s (length l)) l) j = option_map (fun v => ((s + j)%nat, v)) (nth_error l j)) as G.
    { induction l as [|a l IH]; intros s [|j]; cbn; try reflexivity; [rewrite Nat.add_0_r; reflexivity|]. rewrite IH. destruct (nth_error l j); cbn; [|reflexivity]. do 2 f_equal. lia. }
    rewrite (G samples 0%nat k) in H. cbn [plus] in H. destruct (nth_error samples k) as [v|]; cbn [option_map] in H; [|discriminate]. exists v. split; [reflexivity|]. injection H as <-. reflexivity.
Qed.
(** The text of the output: the lines of the header, then for each row time and value with three decimals. *)
Definition samples_text (header : list bytes) (rows : list (Qc * R)) : bytes :=
  flat_map (fun l => l ++ nl) header ++ flat_map (fun r => fmt_fixed 3 (fst r) ++ sp ++ fmt_fixedR 3 (snd r) ++ nl) rows.
(** The header of the output. *)
Definition samples_header (e : env) (base : bytes) (variable : string) (begin : Z) (last : bound) : list bytes :=
  [txt "# Samples of input interface files"; txt "# "; txt "# Created by module: " ++ e_module e; txt "# Creation date: " ++ e_date e; txt "# Using module version: " ++ e_version e; txt "# ";
   txt "# Input:"; txt "#   File base path: " ++ base; txt "#   Variable: '" ++ bytes_of variable ++ txt "'";
   txt "#   Begin, end: " ++ fmt_int begin ++ txt ", " ++ match last with Upto z => fmt_int z | Inf => txt "inf" end; txt "#   Delta-t: 1.0"; txt "# ";
   txt "# Time (ps) " ++ if String.eqb variable "area" then txt "Area (nm^2)" else txt "Circumference (nm)"].

Section Run.
Variables (ffuel : nat) (en : env) (bt : bytes) (variable : string) (dt : Qc) (d : disk) (base : string) (fo : fopts) (n m : nat) (samples : list (option R)) (stop : option exn).
Let begin := match o_begin fo with Some b => b | None => 1%Z end.
Let e := match o_end fo with Some e => e | None => Inf end.
Let ext := match o_ext fo with Some x => x | None => ".xvg"%string end.
Let name i := fname base (begin + Z.of_nat i) ext.
Hypothesis Hf : (n < ffuel)%nat.
Hypothesis Hr : run_length (fun z => match e with Upto m => (z <= m)%Z | Inf => True end /\ exists_path d (os_path (fname base z ext)) = true) begin n.
Hypothesis Hm : (m <= n)%nat.
Hypothesis HL : length samples = m.
Hypothesis HS : forall i v, nth_error samples i = Some v -> shows_sample d (name i) variable v.
Hypothesis HE : match stop with None => m = n | Some err => (m < n)%nat /\ ends_run d (name m) variable err end.
Let outs := map (fun p => option_map (fun v => ((NQ (fst p) * dt, v), sample_line (NQ (fst p) * dt) v)) (snd p)) (combine (seq 0 (length samples)) samples).
Let names := map (fun k => fname base k ext) (numbers begin m).
Let tail := map (fun k => fname base k ext) (numbers (begin + Z.of_nat m) (n - m)).
Lemma found : exists w, Utils.find_datamap_singles ffuel (fun s => exists_path d (os_path s)) base begin e ext = Ok (names ++ tail, w).
Proof.
  unfold Utils.find_datamap_singles. rewrite (yield_singles_run _ _ _ _ n); [|exact Hr|exact Hf]. unfold names, tail. rewrite <- (names_split base ext begin n m Hm). eexists. reflexivity.
Qed.
Lemma steps : length names = length outs /\
  (forall k nm x, nth_error names k = Some nm -> nth_error outs k = Some x -> interface_step variable dt k (Average.content d nm) = as_outcome x) /\
  loop_ends (interface_step variable dt) d (length outs) tail stop.
Proof.
  destruct (rows_in_samples dt samples) as (_ & _ & LO & HO). fold outs in LO, HO. unfold names, tail. rewrite map_length, numbers_length, LO. split; [symmetry; exact HL|]. split.
  - intros k nm x Hn Hx. destruct (HO k x Hx) as (v & Hv & ->). rewrite nth_error_map in Hn.
    assert (k < m)%nat as Hk by (rewrite <- HL; apply nth_error_Some; congruence). rewrite (numbers_nth _ _ _ Hk) in Hn. injection Hn as <-.
    apply shows_step. exact (HS k v Hv).
  - rewrite HL. unfold loop_ends. destruct stop as [err|].
    + destruct HE as [Hlt HE']. destruct (n - m)%nat eqn:E; [lia|]. cbn [numbers map]. apply ends_step. exact HE'.
    + subst m. rewrite HE, Nat.sub_diag. exact I.
Qed.
Lemma sample_run_unsaved : sample_interfaces ffuel en bt variable dt d base "" fo = (d, match stop with None => Ok (rows_of_samples dt samples) | Some err => Err err end).
Proof.
  unfold sample_interfaces. unfold Utils.pop_fileopts. cbn [Utils.f_begin Utils.f_end Utils.f_ext o_begin o_end o_ext o_outext].
  change (Utils.dflt 1%Z (o_begin fo)) with begin. change (Utils.dflt Inf (o_end fo)) with e. change (Utils.dflt ".dat"%string (Some (Utils.dflt ".xvg"%string (o_ext fo)))) with ext.
  destruct found as [w ->]. unfold sample_header, output_of. change (String.eqb "" "") with true. cbv iota.
  destruct steps as (L1 & H1 & H2). rewrite (sampling_unsaved _ d tail stop names outs 0 L1 H1 H2).
  destruct (rows_in_samples dt samples) as (R & _). fold outs in R. rewrite R. reflexivity.
Qed.
Lemma sample_run_saved out : wf d -> out <> ""%string -> (forall i, (i < n)%nat -> os_path (name i) <> os_path out) ->
  let text := samples_text (samples_header en bt variable begin e) (rows_of_samples dt samples) in
  exists d', sample_interfaces ffuel en bt variable dt d base out fo = (d', match stop with None => Ok (rows_of_samples dt samples) | Some err => Err err end) /\
    wf d' /\ lookup (files d') (os_path out) = Some (string_of text) /\
    (forall q, exists_path d q = true -> q <> os_path out -> lookup (files d') q = lookup (files d) q) /\
    Permutation (contents d') (contents d ++ [string_of text]).
Proof.
  intros Hw Ho Hn text. unfold sample_interfaces. unfold Utils.pop_fileopts. cbn [Utils.f_begin Utils.f_end Utils.f_ext o_begin o_end o_ext o_outext].
  change (Utils.dflt 1%Z (o_begin fo)) with begin. change (Utils.dflt Inf (o_end fo)) with e. change (Utils.dflt ".dat"%string (Some (Utils.dflt ".xvg"%string (o_ext fo)))) with ext.
  destruct found as [w ->]. unfold sample_header, output_of. destruct (String.eqb_spec out ""); [contradiction|]. cbv iota. cbn [Utils.f_begin Utils.f_end].
  match goal with |- context [Utils.do_call d (os_path out, ?c)] => set (chunks := c) end.
  destruct (do_call_spec d (os_path out) chunks Hw) as (d1 & E1 & _). rewrite E1.
  destruct steps as (L1 & H1 & H2). destruct (sampling_written (interface_step variable dt) d out chunks d1 names tail outs stop Hw E1) as (d2 & E2 & W2 & K2 & O2 & P2); [|exact L1|exact H1|exact H2|].
  { unfold names, tail. rewrite <- (names_split base ext begin n m Hm). intros s Hs. destruct (names_in _ _ _ _ _ Hs) as (i & Hi & ->). split; [exact (Hn i Hi)|].
    destruct Hr as [R1 _]. exact (proj2 (R1 (Z.of_nat i) ltac:(lia))). }
  rewrite E2. destruct (rows_in_samples dt samples) as (R & T & _). fold outs in R, T. rewrite R. rewrite T in K2, P2.
  assert ((String.concat "" chunks ++ string_of (flat_map (fun r => sample_line (fst r) (snd r)) (rows_of_samples dt samples)))%string = string_of text) as ET.
  { assert (chunks = map string_of [text_lines (module_header (txt "Samples of input interface files") en); text_lines (snd (sample_header en bt variable (Utils.pop_fileopts {| o_begin := Some begin; o_end := Some e; o_ext := None; o_outext := None |})))]) as -> by reflexivity.
    rewrite concat_string_of, <- string_of_app. f_equal. cbn [concat]. rewrite app_nil_r. unfold sample_header, Utils.pop_fileopts. cbn [snd Utils.f_begin Utils.f_end o_begin o_end Utils.dflt]. unfold text, samples_text, text_lines. f_equal.
    unfold samples_header, module_header, end_text, quoted. rewrite <- flat_map_app. cbn [app flat_map]. reflexivity. }
  rewrite ET in K2, P2. exists d2. auto.
Qed.
End Run.

Theorem C80_run : forall ffuel en bt variable dt d base out fo n samples, wf d -> out <> ""%string ->
  let begin := match o_begin fo with Some b => b | None => 1%Z end in
  let e := match o_end fo with Some e => e | None => Inf end in
  let ext := match o_ext fo with Some x => x | None => ".xvg"%string end in
  let name i := fname base (begin + Z.of_nat i) ext in
  let rows := rows_of_samples dt samples in
  let text := samples_text (samples_header en bt variable begin e) rows in
  (n < ffuel)%nat ->
  run_length (fun z => match e with Upto m => (z <= m)%Z | Inf => True end /\ exists_path d (os_path (fname base z ext)) = true) begin n ->
  (forall i, (i < n)%nat -> os_path (name i) <> os_path out) ->
  length samples = n -> (forall i v, nth_error samples i = Some v -> shows_sample d (name i) variable v) ->
  exists d', sample_interfaces ffuel en bt variable dt d base out fo = (d', Ok rows) /\
    wf d' /\ lookup (files d') (os_path out) = Some (string_of text) /\
    (forall q, exists_path d q = true -> q <> os_path out -> lookup (files d') q = lookup (files d) q) /\
    Permutation (contents d') (contents d ++ [string_of text]).
Proof.
  intros ffuel en bt variable dt d base out fo n samples Hw Ho begin e ext name rows text Hf Hr Hn HL HS.
  exact (sample_run_saved ffuel en bt variable dt d base fo n n samples None Hf Hr (le_n n) HL HS eq_refl out Hw Ho Hn).
Qed.
Print Assumptions C80_run.
(** A file which cannot be used ends the run with its exception; the rows of the files before it are in the output. *)
Theorem C80_failing_file : forall ffuel en bt variable dt d base out fo n m samples err, wf d -> out <> ""%string ->
  let begin := match o_begin fo with Some b => b | None => 1%Z end in
  let e := match o_end fo with Some e => e | None => Inf end in
  let ext := match o_ext fo with Some x => x | None => ".xvg"%string end in
  let name i := fname base (begin + Z.of_nat i) ext in
  let text := samples_text (samples_header en bt variable begin e) (rows_of_samples dt samples) in
  (n < ffuel)%nat ->
  run_length (fun z => match e with Upto m => (z <= m)%Z | Inf => True end /\ exists_path d (os_path (fname base z ext)) = true) begin n ->
  (forall i, (i < n)%nat -> os_path (name i) <> os_path out) ->
  (m < n)%nat -> length samples = m -> (forall i v, nth_error samples i = Some v -> shows_sample d (name i) variable v) -> ends_run d (name m) variable err ->
  exists d', sample_interfaces ffuel en bt variable dt d base out fo = (d', Err err) /\
    wf d' /\ lookup (files d') (os_path out) = Some (string_of text) /\
    (forall q, exists_path d q = true -> q <> os_path out -> lookup (files d') q = lookup (files d) q) /\
    Permutation (contents d') (contents d ++ [string_of text]).
Proof.
  intros ffuel en bt variable dt d base out fo n m samples err Hw Ho begin e ext name text Hf Hr Hn Hm HL HS HE.
  exact (sample_run_saved ffuel en bt variable dt d base fo n m samples (Some err) Hf Hr (Nat.lt_le_incl _ _ Hm) HL HS (conj Hm HE) out Hw Ho Hn).
Qed.
Print Assumptions C80_failing_file.
(** An unknown variable is a ValueError at the first file with points; the output then has the header only. *)
Theorem C80_unknown_variable : forall ffuel en bt variable dt d base out fo n pts, wf d -> out <> ""%string ->
  let begin := match o_begin fo with Some b => b | None => 1%Z end in
  let e := match o_end fo with Some e => e | None => Inf end in
  let ext := match o_ext fo with Some x => x | None => ".xvg"%string end in
  let name i := fname base (begin + Z.of_nat i) ext in
  (n < ffuel)%nat -> (0 < n)%nat ->
  run_length (fun z => match e with Upto m => (z <= m)%Z | Inf => True end /\ exists_path d (os_path (fname base z ext)) = true) begin n ->
  (forall i, (i < n)%nat -> os_path (name i) <> os_path out) ->
  variable <> "area"%string -> variable <> "length"%string -> points_in d (name 0%nat) pts ->
  exists d', sample_interfaces ffuel en bt variable dt d base out fo = (d', Err ValueErr) /\
    lookup (files d') (os_path out) = Some (string_of (samples_text (samples_header en bt variable begin e) [])).
Proof.
  intros ffuel en bt variable dt d base out fo n pts Hw Ho begin e ext name Hf H0 Hr Hn NA NL HP.
  destruct (C80_failing_file ffuel en bt variable dt d base out fo n 0 [] ValueErr Hw Ho Hf Hr Hn H0 eq_refl) as (d' & E & _ & L & _).
  - intros [|i] v H; discriminate.
  - do 3 right. exists pts. split; [exact HP|right; auto].
  - exists d'. split; [exact E|exact L].
Qed.
Print Assumptions C80_unknown_variable.
(** Without an output the disk is left as it is, and the result is the same. *)
Theorem C80_not_saved : forall ffuel en bt variable dt d base fo n samples,
  let begin := match o_begin fo with Some b => b | None => 1%Z end in
  let e := match o_end fo with Some e => e | None => Inf end in
  let ext := match o_ext fo with Some x => x | None => ".xvg"%string end in
  (n < ffuel)%nat ->
  run_length (fun z => match e with Upto m => (z <= m)%Z | Inf => True end /\ exists_path d (os_path (fname base z ext)) = true) begin n ->
  length samples = n -> (forall i v, nth_error samples i = Some v -> shows_sample d (fname base (begin + Z.of_nat i) ext) variable v) ->
  sample_interfaces ffuel en bt variable dt d base "" fo = (d, Ok (rows_of_samples dt samples)).
Proof.
  intros ffuel en bt variable dt d base fo n samples begin e ext Hf Hr HL HS.
  exact (sample_run_unsaved ffuel en bt variable dt d base fo n n samples None Hf Hr (le_n n) HL HS eq_refl).
Qed.
Print Assumptions C80_not_saved.
(** Which rows there are. *)
Theorem C80_rows : forall dt samples t v, In (t, v) (rows_of_samples dt samples) <-> exists i, nth_error samples i = Some (Some v) /\ t = NQ i * dt.
Proof.
  intros dt samples t v. unfold rows_of_samples.
  assert (forall l s, In (t, v) (flat_map (fun p => match snd p with Some v => [(NQ (fst p) * dt, v)] | None => [] end) (combine (seq s (length l)) l)) <-> exists i, nth_error l i = Some (Some v) /\ t = NQ (s + i) * dt) as G.
  { induction l as [|a l IH]; intros s; cbn [length seq combine flat_map].
    - split; [intros []|intros ([|i] & H & _); discriminate].
    - rewrite in_app_iff, IH. cbn [fst snd]. split.
      + intros [H|(i & Hi & ->)]; [|exists (S i); split; [exact Hi|do 2 f_equal; lia]]. destruct a as [a|]; [|destruct H]. destruct H as [H|[]]. injection H as <- <-. exists 0%nat. split; [reflexivity|]. rewrite Nat.add_0_r. reflexivity.
      + intros ([|i] & Hi & ->); cbn [nth_error] in Hi; [left; injection Hi as ->; left; rewrite Nat.add_0_r; reflexivity|]. right. exists i. split; [exact Hi|]. do 2 f_equal. lia. }
  exact (G samples 0%nat).
Qed.
Print Assumptions C80_rows.

(** ** Reading it back *)
Theorem C80_read_back : forall header rows, Forall comment_line header ->
  exists table, genfromtxt (samples_text header rows) = Ok table /\
    Forall2 (fun r w => exists t v, w = [Fin t; Fin v] /\ nearest_decimal 3 (fst r) t /\ nearest_decimalR 3 (snd r) v) rows table.
Proof.
  intros header rows Hh.
  assert (exists qs, samples_text header rows = savetxt header qs /\ (forall r, In r qs -> length r = 2%nat) /\
    Forall2 (fun r q => exists v, q = [fst r; v] /\ round_decR 3 (snd r) = round_dec 3 v) rows qs) as (qs & -> & HL & HQ).
  { unfold samples_text, savetxt. induction rows as [|r rows IH].
    - exists []. split; [reflexivity|]. split; [intros r []|constructor].
    - destruct IH as (qs & E & HL & HQ). apply app_inv_head in E. destruct (fmt_fixedR_as 3 (snd r) ltac:(lia)) as (q & Eq & Er). exists ([fst r; q] :: qs). split; [|split].
      + f_equal. cbn [flat_map map join]. rewrite E. f_equal. rewrite Eq, <- !app_assoc. reflexivity.
      + intros w [<-|Hw]; [reflexivity|exact (HL w Hw)].
      + constructor; [exists q; split; [reflexivity|exact Er]|exact HQ]. }
  rewrite (table_read header qs 2 Hh ltac:(lia) HL). eexists. split; [reflexivity|]. clear -HQ. induction HQ as [|r q rows qs (v & -> & Er) HQ IH]; cbn [map]; constructor; [|exact IH].
  exists (round_dec 3 (fst r)), (round_dec 3 v). split; [reflexivity|]. split; [apply round_dec_nearest|]. rewrite <- Er. apply round_decR_nearest.
Qed.
Print Assumptions C80_read_back.
Import InterfaceFilesProps.
Lemma one_line_int z : one_line (fmt_int z).
Proof.
  destruct (fmt_int_plain z) as [H _]. unfold one_line. revert H. apply Forall_impl. unfold plain, is_space. intros b H.
  split; intros C; rewrite C in H; vm_compute in H; discriminate.
Qed.
Theorem C80_header : forall en bt variable begin last,
  one_line (e_module en) -> one_line (e_date en) -> one_line (e_version en) -> one_line bt -> one_line (bytes_of variable) ->
  Forall comment_line (samples_header en bt variable begin last).
Proof.
  intros en bt variable begin last H1 H2 H3 H4 H5.
  assert (forall s t, one_line s -> one_line t -> comment_line (chr 35 :: s ++ t)) as C.
  { intros s t Hs Ht. exists (s ++ t). split; [reflexivity|]. apply Forall_app. split; assumption. }
  assert (forall s, one_line s -> comment_line (chr 35 :: s)) as C0 by (intros s Hs; exists s; split; [reflexivity|exact Hs]).
  assert (one_line (bytes_of variable ++ txt "'")) as Q by (apply Forall_app; split; [exact H5|lit]).
  assert (one_line (fmt_int begin ++ txt ", " ++ match last with Upto z => fmt_int z | Inf => txt "inf" end)) as B.
  { apply Forall_app; split; [apply one_line_int|]. apply Forall_app; split; [lit|]. destruct last; [apply one_line_int|lit]. }
  assert (one_line (if String.eqb variable "area" then txt "Area (nm^2)" else txt "Circumference (nm)")) as V by (destruct (String.eqb variable "area"); lit).
  unfold samples_header.
  repeat (apply Forall_cons; [match goal with
  | |- comment_line (txt ?s ++ ?t) => apply (C (tl (txt s)) t); [lit|assumption]
  | |- comment_line (txt ?s) => apply (C0 (tl (txt s))); lit
  end|]). apply Forall_nil.
Qed.
Print Assumptions C80_header.

(** A step of time other than 1 is used for the times, but the header always says 1.0. *)
Definition ex_file (ls : list string) : string := string_of (flat_map (fun l => txt l ++ nl) ls).
Definition ex_disk : disk := {| files := [(os_path "i_00001.xvg", ex_file ["# x y"; "0.0 0.0"; "1.0 2.0"; "4.0 2.0"; "5.0 0.0"]%string);
                                          (os_path "i_00002.xvg", ex_file ["0.0 0.0"; "1.0 2.0"; "4.0 1.0"; "5.0 0.0"]%string);
                                          (os_path "i_00003.xvg", ex_file ["3.0 4.0"]%string);
                                          (os_path "i_00004.xvg", ex_file ["0.0 0.0"; "0.0 3.0"; "2.0 3.0"; "2.0 0.0"]%string); (os_path "s.xvg", "old"%string)]; Utils.dirs := [] |}.
Definition ex_env : env := mkEnv (txt "m") (txt "now") (txt "1") (txt "/").
Definition ex_fo : fopts := {| o_begin := None; o_end := None; o_ext := None; o_outext := None |}.
Definition pts_of (l : list (Z * Z)) : list (Qc * Qc) := map (fun p => (ZQ (fst p), ZQ (snd p))) l.
Lemma ex_points_1 : points_in ex_disk "i_00001.xvg" (pts_of [(0, 0); (1, 2); (4, 2); (5, 0)]%Z). Proof. eexists. split; [vm_compute; reflexivity|]. vm_compute. reflexivity. Qed.
Lemma ex_points_2 : points_in ex_disk "i_00002.xvg" (pts_of [(0, 0); (1, 2); (4, 1); (5, 0)]%Z). Proof. eexists. split; [vm_compute; reflexivity|]. vm_compute. reflexivity. Qed.
Lemma ex_points_4 : points_in ex_disk "i_00004.xvg" (pts_of [(0, 0); (0, 3); (2, 3); (2, 0)]%Z). Proof. eexists. split; [vm_compute; reflexivity|]. vm_compute. reflexivity. Qed.
Definition ex_samples : list (option R) := [Some (QR (ZQ 8)); None; None; Some (QR (ZQ 6))].
Lemma ex_shows : forall i v, nth_error ex_samples i = Some v -> shows_sample ex_disk (fname "i_" (1 + Z.of_nat i) ".xvg") "area" v.
Proof.
  intros [|[|[|[|i]]]] v H; cbn [ex_samples nth_error] in H; [injection H as <-; cbn [shows_sample]..|].
  - eexists. split; [exact ex_points_1|]. left. split; [reflexivity|]. exists (ZQ 8). split; [vm_compute; reflexivity|reflexivity].
  - split; [reflexivity|]. right. eexists. split; [exact ex_points_2|]. vm_compute. reflexivity.
  - split; [reflexivity|]. left. eexists. eexists. eexists. split; [vm_compute; reflexivity|]. vm_compute. reflexivity.
  - eexists. split; [exact ex_points_4|]. left. split; [reflexivity|]. exists (ZQ 6). split; [vm_compute; reflexivity|reflexivity].
  - destruct i; discriminate.
Qed.
Lemma ex_range : run_length (fun z => True /\ exists_path ex_disk (os_path (fname "i_" z ".xvg")) = true) 1 4.
Proof.
  split.
  - intros k Hk. split; [exact I|]. assert (k = 0 \/ k = 1 \/ k = 2 \/ k = 3)%Z as [-> | [-> | [-> | ->]]] by lia; vm_compute; reflexivity.
  - intros [_ C]. vm_compute in C. discriminate.
Qed.
Lemma ex_apart : forall i, (i < 4)%nat -> os_path (fname "i_" (1 + Z.of_nat i) ".xvg") <> os_path "s.xvg".
Proof. intros i Hi. assert (i = 0 \/ i = 1 \/ i = 2 \/ i = 3)%nat as [-> | [-> | [-> | ->]]] by lia; vm_compute; discriminate. Qed.
Lemma ex_wf : wf ex_disk.
Proof. unfold wf, ex_disk. cbn [files map fst]. repeat constructor; vm_compute; intuition discriminate. Qed.
(** The lines of a text. *)
Definition has_line (l : bytes) (text : string) : Prop := In l (flines (bytes_of text)).
Lemma ex_text : samples_text (samples_header ex_env (txt "'/i_'") "area" 1 Inf) (rows_of_samples (ZQ 2) ex_samples) =
  samples_text (samples_header ex_env (txt "'/i_'") "area" 1 Inf) [] ++ txt "0.000 8.000" ++ nl ++ txt "6.000 6.000" ++ nl.
Proof.
  unfold samples_text. cbn [flat_map]. rewrite app_nil_r. f_equal. unfold rows_of_samples, ex_samples. cbn [length seq combine flat_map fst snd app]. rewrite !fmt_fixedR_QR. vm_compute. reflexivity.
Qed.
Lemma ex_run : exists d', sample_interfaces 10 ex_env (txt "'/i_'") "area" (ZQ 2) ex_disk "i_" "s.xvg" ex_fo = (d', Ok [(NQ 0 * ZQ 2, QR (ZQ 8)); (NQ 3 * ZQ 2, QR (ZQ 6))]) /\
  lookup (files d') (os_path "s.xvg") = Some (string_of (samples_text (samples_header ex_env (txt "'/i_'") "area" 1 Inf) [] ++ txt "0.000 8.000" ++ nl ++ txt "6.000 6.000" ++ nl)) /\
  Permutation (contents d') (contents ex_disk ++ [string_of (samples_text (samples_header ex_env (txt "'/i_'") "area" 1 Inf) [] ++ txt "0.000 8.000" ++ nl ++ txt "6.000 6.000" ++ nl)]).
Proof.
  destruct (C80_run 10 ex_env (txt "'/i_'") "area" (ZQ 2) ex_disk "i_" "s.xvg" ex_fo 4 ex_samples ex_wf ltac:(discriminate) ltac:(lia) ex_range ex_apart eq_refl ex_shows) as (d' & E & _ & L & _ & P).
  cbn [ex_fo o_begin o_end] in L, P. rewrite ex_text in L, P. exists d'. split; [exact E|]. split; [exact L|exact P].
Qed.
Example C80_ex := ex_run.
Theorem C80_delta_t_refuted : ~ (forall ffuel en bt variable dt d base out fo d' rows, wf d -> out <> ""%string -> sample_interfaces ffuel en bt variable dt d base out fo = (d', Ok rows) ->
  exists text, lookup (files d') (os_path out) = Some text /\ has_line (txt "#   Delta-t: " ++ fmt_fixed 1 dt) text).
Proof.
  intros H. destruct ex_run as (d' & E & L & _). assert ("s.xvg" <> "")%string as NE by discriminate. destruct (H _ _ _ _ _ _ _ _ _ _ _ ex_wf NE E) as (text & L' & HT).
  remember (string_of (samples_text (samples_header ex_env (txt "'/i_'") "area" 1 Inf) [] ++ txt "0.000 8.000" ++ nl ++ txt "6.000 6.000" ++ nl)) as s eqn:Es.
  assert (text = s) as -> by congruence. clear L L' E H. unfold has_line in HT. apply (in_map string_of) in HT.
  assert (existsb (String.eqb (string_of (txt "#   Delta-t: " ++ fmt_fixed 1 (ZQ 2)))) (map string_of (flines (bytes_of s))) = true) as K by (apply existsb_exists; eexists; split; [exact HT|apply String.eqb_refl]).
  assert (existsb (String.eqb (string_of (txt "#   Delta-t: " ++ fmt_fixed 1 (ZQ 2)))) (map string_of (flines (bytes_of s))) = false) as N by (rewrite Es; vm_compute; reflexivity). rewrite N in K. discriminate.
Qed.
Print Assumptions C80_delta_t_refuted.
