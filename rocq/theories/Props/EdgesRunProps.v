(** Property C88: the runs of extract_contact_line_bins and sample_contact_line_edges over files. *)
From Coq Require Import String Ascii Permutation.
From Verif.Base Require Import QcX Res Np ListX Bytes.
From Verif.Model Require Utils Formats Average InterfaceFiles.
From Verif.Model Require Import Bins Flow Interface ContactLine GridAverage Sample Edges Text Gmx Simple Table RealText SampleFiles EdgesFiles.
From Verif.Spec Require Import FilesSpec DiskSpec GridSpec EdgesSpec.
From Verif.Proofs Require Import UtilsFiles UtilsDisk UtilsTop FormatsP SpreadingFilesP EdgesP EdgesCombineP SampleFilesP.
From Verif.Props Require Import EdgesProps.
Import Utils(disk, path, files, lookup, fopts, exists_path, fname, bound, Upto, Inf, o_begin, o_end, o_ext, o_outext, exec_ops, Append).
Import Formats(os_path, string_of, bytes_of).
Import InterfaceFiles(env, flow_file, e_module, e_date, e_version).
Local Open Scope list_scope.
Local Notation length := List.length.

(** The file has a map with the information of [f], and [f] has its contact line cells (C51). *)
Definition frame_of (fuel : nat) (o : edge_opts) (content : option bytes) (f : (list bin * list bin) * finfo) : Prop :=
  exists b, flow_file fuel content = Ok (b, snd f) /\
    get_contact_line_cells bM b finfo0 (mkIopts (eo_cutoff o) (eo_radius o) (eo_bins o) false (eo_floor o, None)) (eo_area o) (eo_height o) = Ok (fst f).

Lemma window_map {A B} (f : A -> B) k n l : window k n (map f l) = map f (window k n l).
Proof. unfold window. rewrite skipn_map, firstn_map. reflexivity. Qed.
Lemma windows_map {A B} (f : A -> B) n rolling l : windows n rolling (map f l) = map (map f) (windows n rolling l).
Proof. unfold windows. rewrite map_length. destruct rolling; rewrite map_map; apply map_ext; intros k; apply window_map. Qed.

Section Groups.
Variables (fuel : nat) (o : edge_opts) (d : disk) (dx dy : Qc) (n : nat).
Hypotheses (Hdx : 0 < dx) (Hdy : 0 < dy) (Hxy : dx <= ZQ 2 * dy) (Hn : (0 < n)%nat) (Ho : eo_average o = Z.of_nat n) (Hq : eo_quiet o = false).
Lemma frames_read names frames : Forall (edges_ok dx dy) frames -> Forall2 (fun nm f => frame_of fuel o (Average.content d nm) f) names frames ->
  exists fs, rmapM edge_frame frames = Ok fs /\ map (frame_file fuel o d) names = map Ok (map (fun f => (f, (dx, dy))) fs).
Proof.
  intros HF H. induction H as [|nm f names frames (b & E1 & E2) H IH]; [exists []; split; reflexivity|]. apply Forall_cons_iff in HF as [H1 HF].
  destruct (IH HF) as (fs & EF & EM). destruct (C62_edges false dx dy [f] Hdx Hdy Hxy (Forall_cons _ H1 (Forall_nil _)) ltac:(discriminate)) as (f1 & ed & EE & _).
  cbn [rmapM] in EE. destruct (edge_frame f) as [p|] eqn:EP; [|discriminate]. exists (p :: fs). cbn [rmapM map]. rewrite EP. cbn [rbind]. rewrite EF. split; [reflexivity|].
  rewrite EM. f_equal. unfold frame_file. rewrite E1. cbn [rbind]. unfold interface_opts. rewrite E2. cbn [rbind]. destruct f as [cells fi]. cbn [fst snd] in *. rewrite EP. cbn [rbind]. destruct H1 as (_ & _ & H1). cbn [snd] in H1. rewrite H1. reflexivity.
Qed.
(** What is proved of the groups of files which can be used. *)
Definition good_edges (w : list ((list bin * list bin) * finfo)) (e : flow * flow) : Prop :=
  placed (eo_recenter o) dx dy w e /\ f_spacing (info (fst e)) = Some (dx, dy) /\ forall fuse, exists out, extract_one fuse (dx, dy) e = Ok out.
Lemma groups_ok frames fs : Forall (edges_ok dx dy) frames -> rmapM edge_frame frames = Ok fs ->
  exists items, rmapM (group_edges (eo_recenter o)) (windows n (eo_rolling o) (map (fun f => (f, (dx, dy))) fs)) = Ok items /\ Forall2 good_edges (windows n (eo_rolling o) frames) items.
Proof.
  intros HF EF. rewrite windows_map.
  assert (forall ws, (forall w, In w ws -> w <> [] /\ Forall (edges_ok dx dy) w) -> forall wf, Forall2 (fun w f => rmapM edge_frame w = Ok f) ws wf ->
    exists items, rmapM (group_edges (eo_recenter o)) (map (map (fun f => (f, (dx, dy)))) wf) = Ok items /\ Forall2 good_edges ws items) as G.
  { intros ws HW wf H. induction H as [|w f ws wf H H2 IH]; [exists []; split; [reflexivity|constructor]|].
    destruct (HW w (or_introl eq_refl)) as [W1 W2]. destruct (averaged_edges_ok (eo_recenter o) dx dy w Hdx Hdy Hxy W2 W1) as (f' & L & R & _ & _ & _ & _ & E1 & E2 & _ & _ & _ & LL & _).
    rewrite H in E1. injection E1 as <-.
    assert (good_edges w (L, R)) as GE.
    { split; [|split].
      - destruct (C62_edges (eo_recenter o) dx dy w Hdx Hdy Hxy W2 W1) as (f2 & ed & K1 & K2 & K3). rewrite H in K1. injection K1 as <-. rewrite E2 in K2. injection K2 as <-. exact K3.
      - exact (proj1 (proj2 LL)).
      - intros fuse. destruct (C63_extracted (eo_recenter o) fuse dx dy w Hdx Hdy Hxy W2 W1) as (f2 & L2 & R2 & out & K1 & K2 & _ & K4 & _). rewrite H in K1. injection K1 as <-. rewrite E2 in K2. injection K2 as <- <-. exists out. exact K4. }
    destruct (IH (fun w' Hw' => HW w' (or_intror Hw'))) as (items & E4 & E5). exists ((L, R) :: items). cbn [map rmapM].
    assert (group_edges (eo_recenter o) (map (fun f => (f, (dx, dy))) f) = Ok (L, R)) as ->.
    { unfold group_edges. rewrite !map_map. cbn [fst snd]. rewrite map_id. match goal with |- context [last (map ?F f) ?D] => assert (last (map F f) D = (dx, dy)) as ->; [|exact E2] end.
      assert (f <> []) as NE by (intros ->; destruct w; [congruence|cbn [rmapM] in H; destruct (edge_frame _); [cbn [rbind] in H; destruct (rmapM edge_frame w); discriminate|discriminate]]).
      clear -NE. induction f as [|a f IH]; [congruence|]. destruct f; [reflexivity|]. cbn [map] in *. apply IH. discriminate. }
    cbn [rbind]. rewrite E4. split; [reflexivity|constructor; assumption]. }
  apply (G (windows n (eo_rolling o) frames)).
  - intros w Hw. destruct (C52_window _ frames n _ w Hw) as [L (b & a & Ew)]. split; [intros ->; simpl in L; lia|]. rewrite Ew in HF. apply Forall_app in HF. destruct HF as [_ HF]. apply Forall_app in HF. tauto.
  - assert (length fs = length frames) as HL by (apply (rmapM_length _ _ _ EF)).
    assert (forall (g : nat -> nat) m, Forall2 (fun w f => rmapM edge_frame w = Ok f) (map (fun k => window (g k) n frames) m) (map (fun k => window (g k) n fs) m)) as GG.
    { intros g m. induction m as [|k m IH]; cbn [map]; constructor; [apply rmapM_window; exact EF|exact IH]. }
    unfold windows. rewrite HL. destruct (eo_rolling o); [apply (GG (fun k => k))|apply (GG (fun k => (k * n)%nat))].
Qed.
(** The files [tail] are not used: there are none, or the first of them raises. *)
Lemma edges_spec names tail frames fin : Forall (edges_ok dx dy) frames -> Forall2 (fun nm f => frame_of fuel o (Average.content d nm) f) names frames ->
  match fin with None => tail = [] | Some e => exists nm rest, tail = nm :: rest /\ frame_file fuel o d nm = Err e end ->
  exists items, edges_of_files fuel o d (names ++ tail) = (items, fin) /\ Forall2 good_edges (windows n (eo_rolling o) frames) items.
Proof.
  intros HF H HT. destruct (frames_read names frames HF H) as (fs & EF & EM). destruct (groups_ok frames fs HF EF) as (items & EI & GI). exists items. split; [|exact GI].
  unfold edges_of_files. rewrite Hq, Ho. cbv iota.
  assert ((negb (eo_rolling o) && (Z.of_nat n =? 0)%Z)%bool = false) as -> by (destruct (eo_rolling o); [reflexivity|]; simpl; apply Z.eqb_neq; lia).
  rewrite map_app, EM. cbv zeta. destruct fin as [e|].
  - destruct HT as (nm & rest & -> & HE). cbn [map]. rewrite HE, C52_failing_frame by exact Hn. cbn [fst snd]. apply run_items_ok. exact EI.
  - subst tail. cbn [map]. rewrite app_nil_r, C52_windows by exact Hn. cbn [fst snd]. apply run_items_ok. exact EI.
Qed.
End Groups.

(** ** The text of the output *)
Definition edges_header (en : env) (t : cltexts) (labels : list string) (average : Z) (rolling : bool) (begin : Z) (last : bound) : list bytes :=
  [txt "# Sample average of contact line data from a simulation"; txt "# "; txt "# Created by module: " ++ e_module en; txt "# Creation date: " ++ e_date en; txt "# Using module version: " ++ e_version en; txt "# ";
   txt "# Input:"; txt "#   Sample data labels: " ++ ct_labels t; txt "#   Average over # files: " ++ fmt_int average; txt "#   Rolling average: " ++ txt (if rolling then "True" else "False");
   txt "#   File base path: " ++ ct_base t; txt "#   Begin, end: " ++ fmt_int begin ++ txt ", " ++ match last with Upto z => fmt_int z | Inf => txt "inf" end;
   txt "#   Delta-t: 1.0"; txt "#   Cut-off: " ++ ct_cutoff t; txt "#   Cut-off label: 'M'"; txt "# "; txt "# Time (ps) " ++ join sp (map bytes_of labels)].
(** Below the header a line for each time. *)
Definition edges_text (header : list bytes) (times : list Qc) : bytes := flat_map (fun l => l ++ nl) header ++ flat_map (fun t => fmt_fixed 3 t ++ sp ++ nl) times.
(** The times of the windows of w files: that of their middle file. *)
Definition window_times (w : nat) (rolling : bool) (dt : Qc) (count : nat) : list Qc := map (fun i => NQ ((if rolling then i else i * w) + w / 2)%nat * dt) (seq 0 count).
Lemma window_times_eq w rolling dt (items : list (flow * flow)) : map (sample_time rolling (Z.of_nat w) dt) (seq 0 (length items)) = window_times w rolling dt (length items).
Proof.
  unfold window_times. apply map_ext_in. intros i Hi. apply in_seq in Hi. destruct (C63_times rolling w dt items i ltac:(lia)) as (ts & E & _ & <-).
  assert (ts = map (sample_time rolling (Z.of_nat w) dt) (seq 0 (length items))) as -> by (destruct items; cbn [sample_contact_line_edges] in E; congruence).
  symmetry. apply nth_error_nth. rewrite nth_error_map, (nth_error_nth' _ 0%nat) by (rewrite seq_length; lia). rewrite seq_nth by lia. reflexivity.
Qed.

Section Run.
Variables (ffuel fuel : nat) (o : edge_opts) (d : disk) (base : string) (fo : fopts) (n m w : nat) (dx dy : Qc) (frames : list ((list bin * list bin) * finfo)) (fin : option exn).
Let begin := match o_begin fo with Some b => b | None => 1%Z end.
Let e := match o_end fo with Some e => e | None => Inf end.
Let ext := match o_ext fo with Some x => x | None => ".dat"%string end.
Let name i := fname base (begin + Z.of_nat i) ext.
Hypotheses (Hdx : 0 < dx) (Hdy : 0 < dy) (Hxy : dx <= ZQ 2 * dy) (Hw0 : (0 < w)%nat) (Ho : eo_average o = Z.of_nat w) (Hq : eo_quiet o = false).
Hypothesis Hf : (n < ffuel)%nat.
Hypothesis Hr : run_length (fun z => match e with Upto m => (z <= m)%Z | Inf => True end /\ exists_path d (os_path (fname base z ext)) = true) begin n.
Hypothesis Hm : (m <= n)%nat.
Hypothesis HL : length frames = m.
Hypothesis HF : Forall (edges_ok dx dy) frames.
Definition same_inputs (d1 : disk) : Prop := (forall i, (i < n)%nat -> Average.content d1 (name i) = Average.content d (name i)).
Hypothesis HS : forall i f, nth_error frames i = Some f -> frame_of fuel o (Average.content d (name i)) f.
Hypothesis HE : match fin with None => m = n | Some x => (m < n)%nat /\ frame_file fuel o d (name m) = Err x end.
Let names := map (fun k => fname base k ext) (numbers begin m).
Let tail := map (fun k => fname base k ext) (numbers (begin + Z.of_nat m) (n - m)).
Lemma edges_run d1 : same_inputs d1 -> exists items, edges_of_files fuel o d1 (names ++ tail) = (items, fin) /\ Forall2 (good_edges o dx dy) (windows w (eo_rolling o) frames) items.
Proof.
  intros HD. assert (forall i, (i < n)%nat -> frame_file fuel o d1 (name i) = frame_file fuel o d (name i)) as FF by (intros i Hi; unfold frame_file; rewrite (HD i Hi); reflexivity).
  apply (edges_spec fuel o d1 dx dy w Hdx Hdy Hxy Hw0 Ho Hq names tail frames fin HF).
  - assert (forall i f, nth_error frames i = Some f -> frame_of fuel o (Average.content d1 (name i)) f) as HS1.
    { intros i f Hi. rewrite HD; [exact (HS i f Hi)|]. assert (i < length frames)%nat by (apply nth_error_Some; congruence). lia. }
    unfold names. clear -HS1 HL. subst m. unfold name in HS1. clear name. revert HS1. generalize begin. induction frames as [|f fs IH]; intros b HS; cbn [length numbers map]; constructor.
    + specialize (HS 0%nat f eq_refl). rewrite Z.add_0_r in HS. exact HS.
    + apply IH. intros i g Hi. replace (b + 1 + Z.of_nat i)%Z with (b + Z.of_nat (S i))%Z by lia. apply HS. exact Hi.
  - destruct fin as [x|]; [|subst m; unfold tail; rewrite HE, Nat.sub_diag; reflexivity]. destruct HE as [H1 H2]. unfold tail. destruct (n - m)%nat eqn:E; [lia|]. cbn [numbers map]. eexists _, _. split; [reflexivity|].
    fold (name m). rewrite FF by exact H1. exact H2.
Qed.
(** The disk [d1] has the same input files, and no further one. *)
Lemma run_found (d1 : disk) : (forall i, (i <= n)%nat -> exists_path d1 (os_path (name i)) = exists_path d (os_path (name i))) ->
  exists x, Utils.find_datamap_singles ffuel (fun s => exists_path d1 (os_path s)) base begin e ext = Ok (names ++ tail, x).
Proof.
  intros HD. unfold Utils.find_datamap_singles. rewrite (yield_singles_run _ _ _ _ n); [|clear -Hr HD|exact Hf].
  - unfold names, tail. rewrite <- (names_split base ext begin n m Hm). eexists. reflexivity.
  - destruct Hr as [R1 R2]. unfold name in HD. split.
    + intros i Hi. destruct (R1 i Hi) as [A B]. split; [exact A|]. specialize (HD (Z.to_nat i) ltac:(lia)). rewrite Z2Nat.id in HD by lia. rewrite HD. exact B.
    + intros [A B]. apply R2. split; [exact A|]. rewrite <- (HD n (le_n n)). exact B.
Qed.
(** *** Extracting *)
Lemma extract_run_eq fuse output : exists items, Forall2 (good_edges o dx dy) (windows w (eo_rolling o) frames) items /\
  extract_run ffuel fuel o fuse d base output fo =
    match items with
    | [] => (d, match fin with None => Ok tt | Some x => Err x end)
    | _ => match Utils.prepare_ops d (os_path (fname output begin ext)) with Err x => (d, Err x) | Ok ops => (exec_ops d ops, Err TypeErr) end
    end.
Proof.
  unfold extract_run. unfold Utils.pop_fileopts. cbn [Utils.f_begin Utils.f_end Utils.f_ext o_begin o_end o_ext o_outext].
  change (Utils.dflt 1%Z (o_begin fo)) with begin. change (Utils.dflt Inf (o_end fo)) with e. change (Utils.dflt ".dat"%string (o_ext fo)) with ext.
  destruct (run_found d (fun i _ => eq_refl)) as (x & ->). destruct (edges_run d (fun i _ => eq_refl)) as (items & -> & G). exists items. split; [exact G|].
  destruct items as [|ed items]; [destruct fin; reflexivity|]. inversion G as [|a b c g (_ & S & X) G' E1 E2]. rewrite S. cbn [of_option rbind]. destruct (X fuse) as (out & ->). reflexivity.
Qed.
(** *** Sampling *)
Lemma other_file d1 p chunks q : Utils.do_call d (p, chunks) = Ok d1 -> q <> p -> (forall j, q <> Utils.backup_path p j) -> lookup (files d1) q = lookup (files d) q.
Proof.
  unfold Utils.do_call, Utils.write_ops, Utils.prepare_ops. intros H H1 H2. cbn [fst snd] in H. destruct (backup_name_spec d p) as [(E & EB)|(E & j & Hj & EB & _)]; rewrite EB in H; cbn [rbind fst snd] in H; injection H as <-.
  - rewrite path_eqb_refl. rewrite app_nil_r. unfold exec_ops. rewrite fold_left_app. cbn [fold_left Utils.exec_op].
    assert (forall x a, lookup (files (fold_left Utils.exec_op (map (Append p) chunks) (Utils.set_file x p a))) q = lookup (files x) q) as K.
    { intros x a. pose proof (exec_appends p chunks x a) as K. unfold exec_ops in K. rewrite K. apply lookup_set_neq, H1. }
    rewrite K. destruct (existsb _ _); reflexivity.
  - destruct (path_eqb_spec (Utils.backup_path p j) p) as [EE|_]; [exfalso; exact (backup_neq _ _ EE)|]. unfold exec_ops. rewrite fold_left_app. cbn [fold_left Utils.exec_op].
    assert (forall x a, lookup (files (fold_left Utils.exec_op (map (Append p) chunks) (Utils.set_file x p a))) q = lookup (files x) q) as K.
    { intros x a. pose proof (exec_appends p chunks x a) as K. unfold exec_ops in K. rewrite K. apply lookup_set_neq, H1. }
    rewrite K. rewrite fold_left_app.
    assert (files (fold_left Utils.exec_op (if existsb (String.eqb (fst p)) (Utils.dirs d) then [] else [Utils.Makedirs (fst p)]) d) = files d) as EF by (destruct (existsb _ _); reflexivity).
    cbn [fold_left Utils.exec_op]. rewrite EF. destruct (lookup (files d) p); [|rewrite EF; reflexivity]. cbn [files lookup].
    destruct (path_eqb_spec q (Utils.backup_path p j)) as [->|_]; [exfalso; exact (H2 j eq_refl)|]. rewrite lookup_remove_neq by (exact (H2 j)). apply lookup_remove_neq, H1.
Qed.
Lemma edge_header_eq en t labels opts : Utils.f_begin opts = begin -> Utils.f_end opts = e -> String.concat "" [string_of (text_lines (fst (edge_header en t labels o opts))); string_of (text_lines (snd (edge_header en t labels o opts)))] =
  string_of (edges_text (edges_header en t labels (eo_average o) (eo_rolling o) begin e) []).
Proof.
  intros E1 E2. match goal with |- String.concat "" [string_of ?a; string_of ?b] = _ => change (String.concat "" [string_of a; string_of b]) with (String.concat "" (map string_of [a; b])) end.
  rewrite concat_string_of. f_equal. cbn [concat]. rewrite app_nil_r. unfold edges_text. cbn [flat_map]. rewrite app_nil_r. unfold text_lines. rewrite <- flat_map_app. f_equal. unfold edge_header. rewrite E1, E2. reflexivity.
Qed.
Lemma same_text en t dt (items : list (flow * flow)) : (string_of (edges_text (edges_header en t [] (eo_average o) (eo_rolling o) begin e) []) ++
    String.concat "" (map (fun i => string_of (edge_line (sample_time (eo_rolling o) (eo_average o) dt i))) (seq 0 (length items))))%string =
  string_of (edges_text (edges_header en t [] (eo_average o) (eo_rolling o) begin e) (window_times w (eo_rolling o) dt (length items))).
Proof.
  rewrite <- window_times_eq, <- Ho. rewrite <- (map_map (fun i => edge_line (sample_time (eo_rolling o) (eo_average o) dt i)) string_of), concat_string_of, <- string_of_app. f_equal.
  unfold edges_text. cbn [flat_map]. rewrite app_nil_r. f_equal. rewrite !flat_map_concat_map, map_map. reflexivity.
Qed.
Lemma sample_saved en t labels dt out : wf d -> out <> ""%string -> (forall i, (i <= n)%nat -> os_path (name i) <> os_path out) -> (forall j, os_path (name n) <> Utils.backup_path (os_path out) j) ->
  exists items d', Forall2 (good_edges o dx dy) (windows w (eo_rolling o) frames) items /\
    let times := window_times w (eo_rolling o) dt (length items) in
    let text := edges_text (edges_header en t labels (eo_average o) (eo_rolling o) begin e) (match labels with [] => times | _ => [] end) in
    sample_run ffuel fuel en t labels o dt d base out fo = (d', match labels, items with _ :: _, _ :: _ => Err SysExit | _, _ => match fin with None => Ok times | Some x => Err x end end) /\
    wf d' /\ lookup (files d') (os_path out) = Some (string_of text) /\
    (forall q, exists_path d q = true -> q <> os_path out -> lookup (files d') q = lookup (files d) q) /\
    Permutation (contents d') (contents d ++ [string_of text]).
Proof.
  intros Hw Hout Hn Hb. unfold sample_run. unfold Utils.pop_fileopts. cbn [Utils.f_begin Utils.f_end Utils.f_ext o_begin o_end o_ext o_outext].
  change (Utils.dflt 1%Z (o_begin fo)) with begin. change (Utils.dflt Inf (o_end fo)) with e. change (Utils.dflt ".dat"%string (o_ext fo)) with ext.
  match goal with |- context [edge_header en t labels o ?op] => pose proof (edge_header_eq en t labels op eq_refl eq_refl) as EH; destruct (edge_header en t labels o op) as [h1 h2] end. cbn [fst snd] in EH.
  unfold output_of. destruct (String.eqb_spec out ""); [contradiction|]. cbv iota. set (chunks := [string_of (text_lines h1); string_of (text_lines h2)]) in *.
  destruct (do_call_spec d (os_path out) chunks Hw) as (d1 & E1 & W1 & P1 & L1 & F1). rewrite E1. rewrite EH in P1, L1.
  assert (forall i, (i <= n)%nat -> lookup (files d1) (os_path (name i)) = lookup (files d) (os_path (name i))) as SL.
  { intros i Hi. destruct (Nat.eq_dec i n) as [->|NE]; [apply (other_file d1 (os_path out) chunks _ E1 (Hn n (le_n n)) Hb)|]. apply F1; [exact (Hn i Hi)|]. destruct Hr as [R1 _]. exact (proj2 (R1 (Z.of_nat i) ltac:(lia))). }
  destruct (run_found d1) as (x & ->); [intros i Hi; unfold exists_path; rewrite (SL i Hi); reflexivity|].
  destruct (edges_run d1) as (items & EI & G); [intros i Hi; unfold Average.content; rewrite (SL i ltac:(lia)); reflexivity|]. rewrite EI. cbv zeta. cbn [fst].
  exists items.
  assert (sample_contact_line_edges (length labels) (eo_rolling o) (eo_average o) dt (items, fin) =
    match labels, items with _ :: _, _ :: _ => Err SysExit | _, _ => match fin with None => Ok (window_times w (eo_rolling o) dt (length items)) | Some x => Err x end end) as ->.
  { rewrite <- window_times_eq, Ho. destruct labels, items, fin; reflexivity. }
  destruct labels as [|l labels].
  - set (lines := map (fun i => string_of (edge_line (sample_time (eo_rolling o) (eo_average o) dt i))) (seq 0 (length items))).
    assert (map (fun i => Append (os_path out) (string_of (edge_line (sample_time (eo_rolling o) (eo_average o) dt i)))) (seq 0 (length items)) = map (Append (os_path out)) lines) as -> by (unfold lines; rewrite map_map; reflexivity).
    assert (Utils.do_call d (os_path out, chunks ++ lines) = Ok (exec_ops d1 (map (Append (os_path out)) lines))) as E2.
    { revert E1. unfold Utils.do_call, Utils.write_ops. cbn [fst snd]. destruct (Utils.prepare_ops d (os_path out)) as [pre|]; [|discriminate]. cbn [rbind]. intros [= <-]. f_equal. unfold exec_ops. rewrite map_app, app_comm_cons, app_assoc, fold_left_app. reflexivity. }
    destruct (do_call_spec d (os_path out) (chunks ++ lines) Hw) as (d2 & E2' & W2 & P2 & L2 & F2). rewrite E2 in E2'. injection E2' as <-.
    assert (String.concat "" (chunks ++ lines) = string_of (edges_text (edges_header en t [] (eo_average o) (eo_rolling o) begin e) (window_times w (eo_rolling o) dt (length items)))) as EC.
    { rewrite <- same_text. fold lines. rewrite <- EH. unfold chunks, lines. rewrite <- (map_map (fun i => edge_line (sample_time (eo_rolling o) (eo_average o) dt i)) string_of).
      change [string_of (text_lines h1); string_of (text_lines h2)] with (map string_of [text_lines h1; text_lines h2]). rewrite <- map_app, !concat_string_of, <- string_of_app, concat_app. reflexivity. }
    rewrite EC in P2, L2. eexists. split; [exact G|]. split; [reflexivity|]. split; [exact W2|]. split; [exact L2|]. split; [intros q H1 H2; apply F2; assumption|exact P2].
  - exists d1. split; [exact G|]. split; [reflexivity|]. split; [exact W1|]. split; [exact L1|]. split; [intros q H1 H2; apply F1; assumption|exact P1].
Qed.
End Run.

(** ** The runs *)
(** The files of the run have the frames, but file [m] if [fin] is the exception it raises. *)
Definition readable (fuel : nat) (o : edge_opts) (d : disk) (name : nat -> string) (n m : nat) (frames : list ((list bin * list bin) * finfo)) (fin : option exn) : Prop :=
  length frames = m /\ (forall i f, nth_error frames i = Some f -> frame_of fuel o (Average.content d (name i)) f) /\
  match fin with
  | None => m = n
  | Some x => (m < n)%nat /\
      (flow_file fuel (Average.content d (name m)) = Err x \/
       exists b fi, flow_file fuel (Average.content d (name m)) = Ok (b, fi) /\
         get_contact_line_cells bM b finfo0 (mkIopts (eo_cutoff o) (eo_radius o) (eo_bins o) false (eo_floor o, None)) (eo_area o) (eo_height o) = Err x)
  end.
Lemma readable_file fuel o d name n m frames fin : readable fuel o d name n m frames fin -> (m <= n)%nat /\ match fin with None => m = n | Some x => (m < n)%nat /\ frame_file fuel o d (name m) = Err x end.
Proof.
  intros (_ & _ & H). destruct fin as [x|]; [|subst m; auto]. destruct H as [H1 H2]. split; [lia|]. split; [exact H1|]. unfold frame_file.
  destruct H2 as [-> |(b & fi & -> & H2)]; [reflexivity|]. cbn [rbind]. unfold interface_opts. rewrite H2. reflexivity.
Qed.
(** A group of files can be averaged: its map is made, but it is never written.  The call ends with a TypeError: no file has the
    name of the first output, what it had before is kept in a backup, no other file changes. *)
Theorem C88_never_written_refuted : forall ffuel fuel o fuse d base output fo n m w dx dy frames fin, wf d ->
  let begin := match o_begin fo with Some b => b | None => 1%Z end in
  let e := match o_end fo with Some e => e | None => Inf end in
  let ext := match o_ext fo with Some x => x | None => ".dat"%string end in
  let name i := fname base (begin + Z.of_nat i) ext in
  let out := os_path (fname output begin ext) in
  (n < ffuel)%nat ->
  run_length (fun z => match e with Upto m => (z <= m)%Z | Inf => True end /\ exists_path d (os_path (fname base z ext)) = true) begin n ->
  0 < dx -> 0 < dy -> dx <= ZQ 2 * dy -> eo_average o = Z.of_nat w -> eo_quiet o = false -> Forall (edges_ok dx dy) frames ->
  readable fuel o d name n m frames fin ->
  (0 < w <= m)%nat ->
  exists d', extract_run ffuel fuel o fuse d base output fo = (d', Err TypeErr) /\ wf d' /\ exists_path d' out = false /\ Permutation (contents d') (contents d) /\
    forall q, exists_path d q = true -> q <> out -> lookup (files d') q = lookup (files d) q.
Proof.
  intros ffuel fuel o fuse d base output fo n m w dx dy frames fin Hwf begin e ext name out Hf Hr Hdx Hdy Hxy Ho Hq HF HR Hw.
  destruct (readable_file _ _ _ _ _ _ _ _ HR) as [Hm HE]. destruct HR as (HL & HS & _).
  destruct (extract_run_eq ffuel fuel o d base fo n m w dx dy frames fin Hdx Hdy Hxy ltac:(lia) Ho Hq Hf Hr Hm HL HF HS HE fuse output) as (items & G & ->).
  assert (items <> []) as NE.
  { intros ->. inversion G as [E|]. assert (length (windows w (eo_rolling o) frames) = 0%nat) as K by (rewrite <- E; reflexivity). unfold windows in K. rewrite HL in K. destruct (eo_rolling o); rewrite map_length, seq_length in K; [lia|].
    apply Nat.div_small_iff in K; lia. }
  destruct items as [|x items]; [congruence|]. fold begin ext. fold out. destruct (prepare_effect d out Hwf) as (ops & E & H). rewrite E. exists (exec_ops d ops). split; [reflexivity|].
  destruct (H ops [] ltac:(rewrite app_nil_r; reflexivity)) as (W & P & F & X). auto.
Qed.
Print Assumptions C88_never_written_refuted.
(** Fewer files than in a group can be used: nothing is done; an exception of a file is that of the call. *)
Theorem C88_no_group : forall ffuel fuel o fuse d base output fo n m w dx dy frames fin,
  let begin := match o_begin fo with Some b => b | None => 1%Z end in
  let e := match o_end fo with Some e => e | None => Inf end in
  let ext := match o_ext fo with Some x => x | None => ".dat"%string end in
  let name i := fname base (begin + Z.of_nat i) ext in
  (n < ffuel)%nat ->
  run_length (fun z => match e with Upto m => (z <= m)%Z | Inf => True end /\ exists_path d (os_path (fname base z ext)) = true) begin n ->
  0 < dx -> 0 < dy -> dx <= ZQ 2 * dy -> eo_average o = Z.of_nat w -> eo_quiet o = false -> Forall (edges_ok dx dy) frames ->
  readable fuel o d name n m frames fin ->
  (m < w)%nat ->
  extract_run ffuel fuel o fuse d base output fo = (d, match fin with None => Ok tt | Some x => Err x end).
Proof.
  intros ffuel fuel o fuse d base output fo n m w dx dy frames fin begin e ext name Hf Hr Hdx Hdy Hxy Ho Hq HF HR Hw.
  destruct (readable_file _ _ _ _ _ _ _ _ HR) as [Hm HE]. destruct HR as (HL & HS & _).
  destruct (extract_run_eq ffuel fuel o d base fo n m w dx dy frames fin Hdx Hdy Hxy ltac:(lia) Ho Hq Hf Hr Hm HL HF HS HE fuse output) as (items & G & ->).
  assert (windows w (eo_rolling o) frames = []) as E.
  { unfold windows. rewrite HL. destruct (eo_rolling o); [replace (m + 1 - w)%nat with 0%nat by lia|rewrite Nat.div_small by lia]; reflexivity. }
  rewrite E in G. inversion G. reflexivity.
Qed.
Print Assumptions C88_no_group.
(** For all input: no content is lost, and only the first output is moved; after a call without an exception the disk is as before. *)
Theorem C88_extract_safe : forall ffuel fuel o fuse d base output fo, wf d ->
  let begin := match o_begin fo with Some b => b | None => 1%Z end in
  let ext := match o_ext fo with Some x => x | None => ".dat"%string end in
  let out := os_path (fname output begin ext) in
  let r := extract_run ffuel fuel o fuse d base output fo in
  wf (fst r) /\ Permutation (contents (fst r)) (contents d) /\ (forall q, exists_path d q = true -> q <> out -> lookup (files (fst r)) q = lookup (files d) q) /\
  (snd r = Ok tt -> fst r = d).
Proof.
  intros ffuel fuel o fuse d base output fo Hwf begin ext out r.
  assert (fst r = d \/ (snd r = Err TypeErr /\ exists ops, Utils.prepare_ops d out = Ok ops /\ fst r = exec_ops d ops)) as [E | (E & ops & E1 & E2)].
  { unfold r, extract_run. unfold Utils.pop_fileopts. cbn [Utils.f_begin Utils.f_end Utils.f_ext o_begin o_end o_ext o_outext]. change (Utils.dflt 1%Z (o_begin fo)) with begin. change (Utils.dflt ".dat"%string (o_ext fo)) with ext. fold out.
    destruct (Utils.find_datamap_singles _ _ _ _ _ _) as [[names x]|]; [|left; reflexivity]. destruct (edges_of_files fuel o d names) as [[|ed items] [y|]]; try (left; reflexivity);
    (destruct (of_option TypeErr (f_spacing (info (fst ed)))) as [sp|]; [|left; reflexivity]; cbn [rbind]; destruct (extract_one fuse sp ed); [|left; reflexivity]; destruct (Utils.prepare_ops d out) as [ops|]; [|left; reflexivity]; right; split; [reflexivity|]; exists ops; split; reflexivity). }
  - rewrite E. split; [exact Hwf|]. split; [reflexivity|]. split; reflexivity.
  - destruct (prepare_effect d out Hwf) as (ops' & E3 & H). rewrite E1 in E3. injection E3 as <-. destruct (H ops [] ltac:(rewrite app_nil_r; reflexivity)) as (W & P & F & X). rewrite E2, E.
    split; [exact W|]. split; [exact P|]. split; [auto|discriminate].
Qed.
Print Assumptions C88_extract_safe.
(** Sampling values: if there is a group of files the program ends with status 1, and the output has its header only: no value is ever written. *)
Theorem C88_sample_refuted : forall ffuel fuel en t labels o dt d base out fo n m w dx dy frames fin, wf d -> out <> ""%string -> labels <> [] ->
  let begin := match o_begin fo with Some b => b | None => 1%Z end in
  let e := match o_end fo with Some e => e | None => Inf end in
  let ext := match o_ext fo with Some x => x | None => ".dat"%string end in
  let name i := fname base (begin + Z.of_nat i) ext in
  let text := edges_text (edges_header en t labels (eo_average o) (eo_rolling o) begin e) [] in
  (n < ffuel)%nat ->
  run_length (fun z => match e with Upto m => (z <= m)%Z | Inf => True end /\ exists_path d (os_path (fname base z ext)) = true) begin n ->
  (forall i, (i <= n)%nat -> os_path (name i) <> os_path out) -> (forall j, os_path (name n) <> Utils.backup_path (os_path out) j) ->
  0 < dx -> 0 < dy -> dx <= ZQ 2 * dy -> eo_average o = Z.of_nat w -> eo_quiet o = false -> Forall (edges_ok dx dy) frames ->
  readable fuel o d name n m frames fin ->
  (0 < w <= m)%nat ->
  exists d', sample_run ffuel fuel en t labels o dt d base out fo = (d', Err SysExit) /\
    wf d' /\ lookup (files d') (os_path out) = Some (string_of text) /\
    (forall q, exists_path d q = true -> q <> os_path out -> lookup (files d') q = lookup (files d) q) /\
    Permutation (contents d') (contents d ++ [string_of text]).
Proof.
  intros ffuel fuel en t labels o dt d base out fo n m w dx dy frames fin Hwf Hout Hl begin e ext name text Hf Hr H1 H2 Hdx Hdy Hxy Ho Hq HF HR Hw.
  destruct (readable_file _ _ _ _ _ _ _ _ HR) as [Hm HE]. destruct HR as (HL & HS & _).
  destruct (sample_saved ffuel fuel o d base fo n m w dx dy frames fin Hdx Hdy Hxy ltac:(lia) Ho Hq Hf Hr Hm HL HF HS HE en t labels dt out Hwf Hout H1 H2) as (items & d' & G & R). cbv zeta in R.
  assert (items <> []) as NE.
  { intros ->. inversion G as [E|]. assert (length (windows w (eo_rolling o) frames) = 0%nat) as K by (rewrite <- E; reflexivity). unfold windows in K. rewrite HL in K. destruct (eo_rolling o); rewrite map_length, seq_length in K; [lia|].
    apply Nat.div_small_iff in K; lia. }
  exists d'. destruct labels; [congruence|]. destruct items; [congruence|]. exact R.
Qed.
Print Assumptions C88_sample_refuted.
(** Without labels: a line with the time of each group of files (their middle file), up to the file which cannot be used. *)
Theorem C88_sample_times : forall ffuel fuel en t o dt d base out fo n m w dx dy frames fin, wf d -> out <> ""%string ->
  let begin := match o_begin fo with Some b => b | None => 1%Z end in
  let e := match o_end fo with Some e => e | None => Inf end in
  let ext := match o_ext fo with Some x => x | None => ".dat"%string end in
  let name i := fname base (begin + Z.of_nat i) ext in
  let times := map (fun i => NQ ((if eo_rolling o then i else i * w) + w / 2)%nat * dt) (seq 0 (length (windows w (eo_rolling o) frames))) in
  let text := edges_text (edges_header en t [] (eo_average o) (eo_rolling o) begin e) times in
  (n < ffuel)%nat ->
  run_length (fun z => match e with Upto m => (z <= m)%Z | Inf => True end /\ exists_path d (os_path (fname base z ext)) = true) begin n ->
  (forall i, (i <= n)%nat -> os_path (name i) <> os_path out) -> (forall j, os_path (name n) <> Utils.backup_path (os_path out) j) ->
  0 < dx -> 0 < dy -> dx <= ZQ 2 * dy -> eo_average o = Z.of_nat w -> eo_quiet o = false -> Forall (edges_ok dx dy) frames ->
  readable fuel o d name n m frames fin ->
  (0 < w)%nat ->
  exists d', sample_run ffuel fuel en t [] o dt d base out fo = (d', match fin with None => Ok times | Some x => Err x end) /\
    wf d' /\ lookup (files d') (os_path out) = Some (string_of text) /\
    (forall q, exists_path d q = true -> q <> os_path out -> lookup (files d') q = lookup (files d) q) /\
    Permutation (contents d') (contents d ++ [string_of text]).
Proof.
  intros ffuel fuel en t o dt d base out fo n m w dx dy frames fin Hwf Hout begin e ext name times text Hf Hr H1 H2 Hdx Hdy Hxy Ho Hq HF HR Hw.
  destruct (readable_file _ _ _ _ _ _ _ _ HR) as [Hm HE]. destruct HR as (HL & HS & _).
  destruct (sample_saved ffuel fuel o d base fo n m w dx dy frames fin Hdx Hdy Hxy ltac:(lia) Ho Hq Hf Hr Hm HL HF HS HE en t [] dt out Hwf Hout H1 H2) as (items & d' & G & R). cbv zeta in R.
  exists d'. unfold text, times. rewrite (Forall2_length G). exact R.
Qed.
Print Assumptions C88_sample_times.
(** No group of files: only the header is written. *)
Theorem C88_sample_no_group : forall ffuel fuel en t labels o dt d base out fo n m w dx dy frames fin, wf d -> out <> ""%string ->
  let begin := match o_begin fo with Some b => b | None => 1%Z end in
  let e := match o_end fo with Some e => e | None => Inf end in
  let ext := match o_ext fo with Some x => x | None => ".dat"%string end in
  let name i := fname base (begin + Z.of_nat i) ext in
  let text := edges_text (edges_header en t labels (eo_average o) (eo_rolling o) begin e) [] in
  (n < ffuel)%nat ->
  run_length (fun z => match e with Upto m => (z <= m)%Z | Inf => True end /\ exists_path d (os_path (fname base z ext)) = true) begin n ->
  (forall i, (i <= n)%nat -> os_path (name i) <> os_path out) -> (forall j, os_path (name n) <> Utils.backup_path (os_path out) j) ->
  0 < dx -> 0 < dy -> dx <= ZQ 2 * dy -> eo_average o = Z.of_nat w -> eo_quiet o = false -> Forall (edges_ok dx dy) frames ->
  readable fuel o d name n m frames fin ->
  (m < w)%nat ->
  exists d', sample_run ffuel fuel en t labels o dt d base out fo = (d', match fin with None => Ok [] | Some x => Err x end) /\
    wf d' /\ lookup (files d') (os_path out) = Some (string_of text) /\
    (forall q, exists_path d q = true -> q <> os_path out -> lookup (files d') q = lookup (files d) q) /\
    Permutation (contents d') (contents d ++ [string_of text]).
Proof.
  intros ffuel fuel en t labels o dt d base out fo n m w dx dy frames fin Hwf Hout begin e ext name text Hf Hr H1 H2 Hdx Hdy Hxy Ho Hq HF HR Hw.
  destruct (readable_file _ _ _ _ _ _ _ _ HR) as [Hm HE]. destruct HR as (HL & HS & _).
  destruct (sample_saved ffuel fuel o d base fo n m w dx dy frames fin Hdx Hdy Hxy ltac:(lia) Ho Hq Hf Hr Hm HL HF HS HE en t labels dt out Hwf Hout H1 H2) as (items & d' & G & R). cbv zeta in R.
  assert (windows w (eo_rolling o) frames = []) as E.
  { unfold windows. rewrite HL. destruct (eo_rolling o); [replace (m + 1 - w)%nat with 0%nat by lia|rewrite Nat.div_small by lia]; reflexivity. }
  rewrite E in G. inversion G. subst items. exists d'. cbn [length] in R. unfold window_times in R. cbn [seq map] in R. destruct labels; exact R.
Qed.
Print Assumptions C88_sample_no_group.
(** quiet=True: all calls for which files are looked for end with an UnboundLocalError; sampling has written its header before. *)
Theorem C88_quiet_refuted : forall ffuel fuel en t labels o dt fuse d base output out fo n, wf d -> out <> ""%string ->
  let begin := match o_begin fo with Some b => b | None => 1%Z end in
  let e := match o_end fo with Some e => e | None => Inf end in
  let ext := match o_ext fo with Some x => x | None => ".dat"%string end in
  let name i := fname base (begin + Z.of_nat i) ext in
  (n < ffuel)%nat ->
  run_length (fun z => match e with Upto m => (z <= m)%Z | Inf => True end /\ exists_path d (os_path (fname base z ext)) = true) begin n ->
  (forall i, (i <= n)%nat -> os_path (name i) <> os_path out) -> (forall j, os_path (name n) <> Utils.backup_path (os_path out) j) ->
  eo_quiet o = true ->
  extract_run ffuel fuel o fuse d base output fo = (d, Err UnboundErr) /\
  exists d', sample_run ffuel fuel en t labels o dt d base out fo = (d', Err UnboundErr) /\
    lookup (files d') (os_path out) = Some (string_of (edges_text (edges_header en t labels (eo_average o) (eo_rolling o) begin e) [])).
Proof.
  intros ffuel fuel en t labels o dt fuse d base output out fo n Hwf Hout begin e ext name Hf Hr H1 H2 Hq.
  assert (forall d1, (forall i, (i <= n)%nat -> exists_path d1 (os_path (name i)) = exists_path d (os_path (name i))) ->
    exists names x, Utils.find_datamap_singles ffuel (fun s => exists_path d1 (os_path s)) base begin e ext = Ok (names, x)) as FD.
  { intros d1 HD. destruct (run_found ffuel d base fo n n Hf Hr (le_n n) d1 HD) as (x & E). eauto. }
  split.
  - unfold extract_run. unfold Utils.pop_fileopts. cbn [Utils.f_begin Utils.f_end Utils.f_ext o_begin o_end o_ext o_outext]. change (Utils.dflt 1%Z (o_begin fo)) with begin. change (Utils.dflt Inf (o_end fo)) with e. change (Utils.dflt ".dat"%string (o_ext fo)) with ext.
    destruct (FD d (fun i _ => eq_refl)) as (names & x & ->). unfold edges_of_files. rewrite Hq. reflexivity.
  - unfold sample_run. unfold Utils.pop_fileopts. cbn [Utils.f_begin Utils.f_end Utils.f_ext o_begin o_end o_ext o_outext]. change (Utils.dflt 1%Z (o_begin fo)) with begin. change (Utils.dflt Inf (o_end fo)) with e. change (Utils.dflt ".dat"%string (o_ext fo)) with ext.
    match goal with |- context [edge_header en t labels o ?op] => pose proof (edge_header_eq o fo en t labels op eq_refl eq_refl) as EH; destruct (edge_header en t labels o op) as [h1 h2] end. cbn [fst snd] in EH. fold begin e in EH.
    unfold output_of. destruct (String.eqb_spec out ""); [contradiction|]. cbv iota. set (chunks := [string_of (text_lines h1); string_of (text_lines h2)]) in *.
    destruct (do_call_spec d (os_path out) chunks Hwf) as (d1 & E1 & W1 & P1 & L1 & F1). rewrite E1. rewrite EH in L1.
    destruct (FD d1) as (names & x & ->).
    { intros i Hi. unfold exists_path. destruct (Nat.eq_dec i n) as [->|NE]; [rewrite (other_file d d1 (os_path out) chunks _ E1 (H1 n (le_n n)) H2); reflexivity|]. rewrite F1; [reflexivity|exact (H1 i Hi)|]. destruct Hr as [R1 _]. exact (proj2 (R1 (Z.of_nat i) ltac:(lia))). }
    unfold edges_of_files. rewrite Hq. exists d1. split; [destruct labels; reflexivity|exact L1].
Qed.
Print Assumptions C88_quiet_refuted.

(** The time between maps is not recorded: the output is the same for all of them. *)
Theorem C88_delta_t_refuted : forall ffuel fuel en t labels o dt dt' d base out fo, labels <> [] ->
  fst (sample_run ffuel fuel en t labels o dt d base out fo) = fst (sample_run ffuel fuel en t labels o dt' d base out fo).
Proof.
  intros ffuel fuel en t labels o dt dt' d base out fo Hl. unfold sample_run. destruct (edge_header en t labels o (Utils.pop_fileopts fo)) as [h1 h2].
  destruct (match output_of out with None => _ | Some _ => _ end) as [d1|]; [|reflexivity]. destruct (Utils.find_datamap_singles _ _ _ _ _ _) as [[names x]|]; [|reflexivity]. cbv zeta.
  destruct labels; [congruence|]. reflexivity.
Qed.
Print Assumptions C88_delta_t_refuted.

(** *** A case: two maps of 4 x 2 bins; the edges are the two columns at each side.  An old output is there. *)
Definition ex_bin (m x y : Z) : bin := mkBin (ZQ x) (ZQ y) 1 1 (ZQ m) 1 0.
Definition ex_map (m : Z) : list bin := map (fun p => ex_bin m (fst p) (snd p)) [(1, 0); (1, 1); (2, 0); (2, 1); (3, 0); (3, 1); (4, 0); (4, 1)]%Z.
Definition ex_text (b : list bin) : string :=
  match Simple.simple_write false [("X", map bX b); ("Y", map bY b); ("N", map bN b); ("T", map bT b); ("M", map bM b); ("U", map bU b); ("V", map bV b)]%string with
  | Ok f => string_of_list_ascii f | Err _ => ""%string end.
Definition ex_disk : disk := Eval vm_compute in {| Utils.files := [(os_path "a00001.dat", ex_text (ex_map 2)); (os_path "a00002.dat", ex_text (ex_map 4)); (os_path "out00001.dat", "old"%string)]; Utils.dirs := [] |}.
Definition ex_fo : fopts := {| o_begin := None; o_end := None; o_ext := None; o_outext := None |}.
Definition ex_opts : edge_opts := mkEdgeOpts (Some 1) (Some 1) 1 None (1, 1) 0 2 false false false.
Definition ex_fi : finfo := Eval vm_compute in match flow_file 60 (Average.content ex_disk "a00001.dat") with Ok m => snd m | Err _ => finfo0 end.
Definition ex_frame (m : Z) : (list bin * list bin) * finfo :=
  ((map (fun p => ex_bin m (fst p) (snd p)) [(1, 0); (1, 1); (2, 0); (2, 1)]%Z, map (fun p => ex_bin m (fst p) (snd p)) [(3, 0); (3, 1); (4, 0); (4, 1)]%Z), ex_fi).
Lemma ex_readable : readable 60 ex_opts ex_disk (fun i => fname "a" (1 + Z.of_nat i) ".dat") 2 2 [ex_frame 2; ex_frame 4] None.
Proof.
  split; [reflexivity|]. split; [|reflexivity]. intros [|[|i]] f Hi; [| |destruct i; discriminate]; injection Hi as <-.
  - exists (ex_map 2). split; vm_compute; reflexivity.
  - exists (ex_map 4). split; vm_compute; reflexivity.
Qed.
Lemma ex_cells m x0 : x0 = 1%Z \/ x0 = 3%Z -> edge_cells 1 1 (map (fun p => ex_bin m (fst p) (snd p)) [(x0, 0); (x0, 1); (x0 + 1, 0); (x0 + 1, 1)]%Z).
Proof.
  intros Hx. exists (ZQ x0), 0, 2%nat, 2%nat. split; [lia|]. split; [lia|]. exists (map row_of (map (fun p => ex_bin m (fst p) (snd p)) [(x0, 0); (x0 + 1, 0); (x0, 1); (x0 + 1, 1)]%Z)).
  split; [cbn [map]; apply perm_skip, perm_swap|]. split; [reflexivity|]. split; [intros r Hr; cbn in Hr; repeat (destruct Hr as [<- | Hr]; [reflexivity|]); destruct Hr|].
  intros i j Hi Hj. destruct j as [|[|j]]; try lia; destruct i as [|[|i]]; try lia; destruct Hx as [-> | ->]; split; apply qeq_true; vm_compute; reflexivity.
Qed.
Lemma ex_frames_ok : Forall (edges_ok 1 1) [ex_frame 2; ex_frame 4].
Proof.
  assert (f_spacing ex_fi = Some (1, 1)) as S by (unfold ex_fi; cbn [f_spacing]; apply (f_equal Some), (f_equal2 pair); apply Qc_is_canon; reflexivity).
  apply Forall_cons; [|apply Forall_cons; [|apply Forall_nil]]; (split; [|split; [|exact S]]); [apply (ex_cells 2 1); auto|apply (ex_cells 2 3); auto|apply (ex_cells 4 1); auto|apply (ex_cells 4 3); auto].
Qed.
Lemma ex_run : run_length (fun z => True /\ exists_path ex_disk (os_path (fname "a" z ".dat")) = true) 1 2.
Proof.
  split; [|intros [_ K]; vm_compute in K; discriminate]. intros k Hk. split; [exact I|]. assert (k = 0%Z \/ k = 1%Z) as [-> | ->] by lia; reflexivity.
Qed.
(** The map of the group is not written, and the old output is kept under another name. *)
Example C88_ex : exists d', extract_run 3 60 ex_opts false ex_disk "a" "out" ex_fo = (d', Err TypeErr) /\ exists_path d' (os_path "out00001.dat") = false /\ In "old"%string (contents d').
Proof.
  assert (wf ex_disk) as Hwf by (unfold wf; cbn; repeat constructor; cbn; intuition discriminate).
  destruct (C88_never_written_refuted 3 60 ex_opts false ex_disk "a" "out" ex_fo 2 2 2 1 1 [ex_frame 2; ex_frame 4] None Hwf ltac:(lia) ex_run ltac:(reflexivity) ltac:(reflexivity) ltac:(discriminate) eq_refl eq_refl ex_frames_ok ex_readable ltac:(lia)) as (d' & E & W & X & P & F).
  exists d'. split; [exact E|]. split; [exact X|]. apply (Permutation_in _ (Permutation_sym P)). right. right. left. reflexivity.
Qed.
(** Sampling the mass: the file has its header only.  Without labels, rolling groups of two: one line. *)
Definition ex_env : env := InterfaceFiles.mkEnv (txt "strata") (txt "today") (txt "1") (txt "/").
Definition ex_texts : cltexts := mkCltexts (txt "['M']") (txt "'a'") (txt "1.0").
Lemma ex_outputs : (forall i, (i <= 2)%nat -> os_path (fname "a" (1 + Z.of_nat i) ".dat") <> os_path "av.xvg") /\ (forall j, os_path (fname "a" (1 + Z.of_nat 2) ".dat") <> Utils.backup_path (os_path "av.xvg") j).
Proof. split; [intros i Hi K; destruct i as [|[|[|i]]]; [discriminate K..|lia]|intros j K; discriminate K]. Qed.
Example C88_ex_sample : exists d' d'', 
  sample_run 3 60 ex_env ex_texts ["M"]%string ex_opts (ZQ 5) ex_disk "a" "av.xvg" ex_fo = (d', Err SysExit) /\
  lookup (files d') (os_path "av.xvg") = Some (string_of (edges_text (edges_header ex_env ex_texts ["M"]%string 2 false 1 Inf) [])) /\
  sample_run 3 60 ex_env ex_texts [] ex_opts (ZQ 5) ex_disk "a" "av.xvg" ex_fo = (d'', Ok [NQ 1 * ZQ 5]) /\
  lookup (files d'') (os_path "av.xvg") = Some (string_of (edges_text (edges_header ex_env ex_texts [] 2 false 1 Inf) [NQ 1 * ZQ 5])).
Proof.
  assert (wf ex_disk) as Hwf by (unfold wf; cbn; repeat constructor; cbn; intuition discriminate). destruct ex_outputs as [O1 O2].
  destruct (C88_sample_refuted 3 60 ex_env ex_texts ["M"]%string ex_opts (ZQ 5) ex_disk "a" "av.xvg" ex_fo 2 2 2 1 1 [ex_frame 2; ex_frame 4] None Hwf ltac:(discriminate) ltac:(discriminate) ltac:(lia) ex_run O1 O2
    ltac:(reflexivity) ltac:(reflexivity) ltac:(discriminate) eq_refl eq_refl ex_frames_ok ex_readable ltac:(lia)) as (d' & E1 & _ & E2 & _).
  destruct (C88_sample_times 3 60 ex_env ex_texts ex_opts (ZQ 5) ex_disk "a" "av.xvg" ex_fo 2 2 2 1 1 [ex_frame 2; ex_frame 4] None Hwf ltac:(discriminate) ltac:(lia) ex_run O1 O2
    ltac:(reflexivity) ltac:(reflexivity) ltac:(discriminate) eq_refl eq_refl ex_frames_ok ex_readable ltac:(lia)) as (d'' & E3 & _ & E4 & _).
  exists d', d''. auto.
Qed.
