(** Property C83: drawing interfaces of files. *)
From Coq Require Import String Ascii Permutation.
From Verif.Base Require Import QcX Res Np Bytes ListX.
From Verif.Model Require Utils Average.
From Verif.Model Require Import Text Gmx Simple Formats Table InterfaceView InterfaceViewFiles.
From Verif.Spec Require Import FilesSpec DiskSpec AverageSpec.
From Verif.Proofs Require Import UtilsFiles UtilsDisk UtilsTop CollectP CollectRunP InterfaceViewP AverageFilesP.
From Verif.Props Require InterfaceViewProps.
Import InterfaceViewProps(interface, split_at, left_point, right_point, well_formed, left_keys, right_keys, C38_common_layers).
Import Utils(disk, path, files, fopts, exists_path, fname, bound, Upto, Inf, o_begin, o_end, o_ext, o_outext, ceil_div, exec_ops, prepare_ops).
Local Open Scope list_scope.
Local Notation length := List.length.

(** ** What a group of files shows *)
(** The average: the left edge from below and the right edge from above, each with the heights which all interfaces have there and the mean of their x values. *)
Definition is_average (l : list interface) (s : series) : Prop :=
  exists L R, s = L ++ rev R /\ increasing (map fst L) /\ increasing (map fst R) /\
    (forall y x, In (y, x) L <-> exists vs, Forall2 (fun i v => left_point i y v) l vs /\ x = qsum vs / NQ (length l)) /\
    (forall y x, In (y, x) R <-> exists vs, Forall2 (fun i v => right_point i y v) l vs /\ x = qsum vs / NQ (length l)).
(** All files are interfaces and [s] is their average; or one cannot be read, or one has a height twice on an edge. *)
Definition group_shows (d : disk) (names : list string) (v : option series) : Prop :=
  match v with
  | Some s => exists l, Forall2 (fun n i => read_columns (Average.content d n) = Ok i /\ well_formed i) names l /\ is_average l s
  | None => exists n, In n names /\ ((exists e, read_columns (Average.content d n) = Err e) \/ (exists i, read_columns (Average.content d n) = Ok i /\ ~ well_formed i))
  end.

Lemma average_unique l s : l <> [] -> (forall i, In i l -> well_formed i) -> is_average l s -> average_interfaces l = Ok s.
Proof.
  intros Hne HW (L & R & -> & HL & HR & IL & IR). destruct (C38_common_layers l Hne HW) as (L' & R' & E & HL' & HR' & IL' & IR'). rewrite E.
  assert (L' = L) as -> by (apply inc_pairs_ext; [assumption|assumption|intros y x; rewrite IL, IL'; reflexivity]).
  assert (R' = R) as -> by (apply inc_pairs_ext; [assumption|assumption|intros y x; rewrite IR, IR'; reflexivity]). reflexivity.
Qed.
Lemma sides_ok i : length (fst i) = length (snd i) -> get_boundary_sides i = Ok (left_half i, right_half i).
Proof.
  destruct i as [xs ys]. cbn [fst snd]. intros H. unfold get_boundary_sides, left_half, right_half. cbn [fst snd]. rewrite !firstn_length, !skipn_length, H, !Nat.eqb_refl. reflexivity.
Qed.
Lemma average_repeats l i : In i l -> ~ well_formed i -> exists e, average_interfaces l = Err e.
Proof.
  intros Hi HN. unfold average_interfaces. destruct (rmapM get_boundary_sides l) as [edges|e] eqn:E; [|cbn [rbind]; eauto]. cbn [rbind].
  unfold average_edge at 1. destruct (forallb (fun s => nodupb (map fst s)) (map fst edges)) eqn:F1; [|cbn [rbind]; eauto]. cbn [rbind].
  unfold average_edge. destruct (forallb (fun s => nodupb (map fst s)) (map snd edges)) eqn:F2; [|cbn [rbind]; eauto]. exfalso. apply HN. clear HN.
  assert (exists s, In s edges /\ get_boundary_sides i = Ok s) as (s & Hs & Es).
  { clear F1 F2. revert edges E. induction l as [|j l IH]; intros edges E; [destruct Hi|]. cbn [rmapM] in E. destruct (get_boundary_sides j) as [s|] eqn:Ej; [|discriminate]. cbn [rbind] in E.
    destruct (rmapM get_boundary_sides l) as [r|] eqn:Er; [|discriminate]. cbn [rbind] in E. assert (edges = s :: r) as -> by congruence. destruct Hi as [-> | Hi]; [exists s; split; [left; reflexivity|exact Ej]|].
    destruct (IH Hi r eq_refl) as (s' & H1 & H2). exists s'. split; [right; exact H1|exact H2]. }
  assert (length (fst i) = length (snd i)) as HL.
  { destruct i as [xs ys]. unfold get_boundary_sides in Es. cbn [fst snd]. destruct (Nat.eqb _ _ && Nat.eqb _ _)%bool eqn:B; [|discriminate]. apply Bool.andb_true_iff in B as [B1 B2]. apply Nat.eqb_eq in B1, B2.
    rewrite <- (firstn_skipn (Nat.div (length xs) 2) xs), <- (firstn_skipn (Nat.div (length xs) 2) ys), !app_length, B1, B2. reflexivity. }
  split; [exact HL|]. rewrite sides_ok in Es by exact HL. assert (s = (left_half i, right_half i)) as -> by congruence.
  rewrite <- (left_keys i HL), <- (right_keys i HL). rewrite forallb_forall in F1, F2. split; apply nodupb_spec; [apply F1|apply F2]; apply in_map_iff; eexists; (split; [|exact Hs]); reflexivity.
Qed.
Lemma group_ok d names s : names <> [] -> group_shows d names (Some s) -> group_interface d names = Ok s.
Proof.
  intros Hne (l & HF & HA). unfold group_interface. assert (rmapM (fun n => read_columns (Average.content d n)) names = Ok l) as ->.
  { clear HA Hne. induction HF as [|n i names l [H1 H2] HF IH]; [reflexivity|]. cbn [rmapM]. rewrite H1. cbn [rbind]. rewrite IH. reflexivity. }
  cbn [rbind]. apply average_unique; [|clear HA|exact HA].
  - intros ->. inversion HF; subst. congruence.
  - clear Hne. induction HF as [|n i names l [H1 H2] HF IH]; intros j Hj; [destruct Hj|]. destruct Hj as [<- | Hj]; [exact H2|exact (IH j Hj)].
Qed.
Lemma group_err d names : group_shows d names None -> exists e, group_interface d names = Err e.
Proof.
  intros (n & Hn & HC). unfold group_interface. destruct (rmapM (fun n => read_columns (Average.content d n)) names) as [l|e] eqn:E; [|cbn [rbind]; eauto]. cbn [rbind].
  assert (exists i, In i l /\ read_columns (Average.content d n) = Ok i) as (i & Hi & Ei).
  { clear HC. revert l E. induction names as [|m names IH]; intros l E; [destruct Hn|]. cbn [rmapM] in E. destruct (read_columns (Average.content d m)) as [i|] eqn:Em; [|discriminate]. cbn [rbind] in E.
    destruct (rmapM _ names) as [r|] eqn:Er; [|discriminate]. cbn [rbind] in E. assert (l = i :: r) as -> by congruence. destruct Hn as [-> | Hn]; [exists i; split; [left; reflexivity|exact Em]|].
    destruct (IH Hn r eq_refl) as (i' & H1 & H2). exists i'. split; [right; exact H1|exact H2]. }
  destruct HC as [(e & C)|(j & C & HN)]; [congruence|]. assert (j = i) as -> by congruence. exact (average_repeats l i Hi HN).
Qed.

(** ** The run *)
(** The names of group number [i] of [M] files. *)
Definition group_names (base ext : string) (begin : Z) (M i : nat) : list string := map (fun k => fname base k ext) (numbers (bundle_start begin M false i) M).
(** The interfaces which were found, and the figures: group [i] has the number [K + i]; a single point is not drawn. *)
Definition found (vs : list (option series)) : list series := flat_map (fun v => match v with Some s => [s] | None => [] end) vs.
Fixpoint figures (save_fig : option string) (figext : string) (K : Z) (vs : list (option series)) : list figure :=
  match vs with
  | [] => []
  | Some s :: vs => (if Nat.leb 2 (length s) then [(match save_fig with Some b => Some (fname b K figext) | None => None end, s)] else []) ++ figures save_fig figext (K + 1) vs
  | None :: vs => figures save_fig figext (K + 1) vs
  end.

Lemma loop_unsaved d save_fig figext : forall groups vs K, (forall i g v, nth_error groups i = Some g -> nth_error vs i = Some v -> fst g <> [] /\ group_shows d (fst g) v) -> length groups = length vs ->
  view_loop "" save_fig figext K d groups = (d, (found vs, figures save_fig figext K vs), None).
Proof.
  induction groups as [|[names out] groups IH]; intros [|v vs] K H HL; try discriminate HL; [reflexivity|].
  assert (view_loop "" save_fig figext (K + 1)%Z d groups = (d, (found vs, figures save_fig figext (K + 1) vs), None)) as E.
  { apply IH; [|injection HL as HL; exact HL]. intros i g w H1 H2. exact (H (S i) g w H1 H2). }
  cbn [view_loop]. destruct (H 0%nat _ _ eq_refl eq_refl) as [Hne Hv]. cbn [fst] in Hne, Hv. destruct v as [s|].
  - rewrite (group_ok d names s Hne Hv). cbn [String.eqb]. rewrite E. unfold found. cbn [flat_map figures app]. fold (found vs). do 3 f_equal.
    destruct (Nat.ltb_spec 1 (length s)), (Nat.leb_spec 2 (length s)); try lia; cbn [app]; [|reflexivity]. destruct save_fig; reflexivity.
  - destruct (group_err d names Hv) as (e & ->). rewrite E. reflexivity.
Qed.
Lemma numbers_ne a M : (0 < M)%nat -> numbers a M <> [].
Proof. intros HM C. pose proof (numbers_length a M) as L. rewrite C in L. cbn in L. lia. Qed.
Lemma begin_number begin M i : (0 < M)%nat -> bundle_output begin M false i (ceil_div begin (Z.of_nat M) + Z.of_nat i).
Proof. intros HM. unfold bundle_output, bundle_start. cbv zeta. rewrite Nat2Z.inj_mul. rewrite <- ceil_div_shift by lia. apply ceil_div_spec. lia. Qed.

(** For each full group of the unbroken run whose files are interfaces, in order, the averaged interface is returned, as x values and as heights; other groups are skipped.  Figures are drawn
    of those with more than one point, numbered as the groups.  Nothing on the disk changes. *)
Theorem C83_run : forall ffuel d base M save_fig figext fo n vs, (0 < M)%nat ->
  let begin := match o_begin fo with Some b => b | None => 1%Z end in
  let e := match o_end fo with Some e => e | None => Inf end in
  let ext := match o_ext fo with Some x => x | None => ".xvg"%string end in
  (n + 1 < ffuel)%nat -> run_length (fun z => match e with Upto m => (z <= m)%Z | Inf => True end /\ exists_path d (os_path (fname base z ext)) = true) begin n ->
  length vs = Nat.div n M -> (forall i v, nth_error vs i = Some v -> group_shows d (group_names base ext begin M i) v) ->
  exists K, (forall i, bundle_output begin M false i (K + Z.of_nat i)) /\
    view_interfaces ffuel d base (Z.of_nat M) "" save_fig figext fo = (d, figures save_fig figext K vs, Ok (map (map snd) (found vs), map (map fst) (found vs))).
Proof.
  intros ffuel d base M save_fig figext fo n vs HM begin e ext Hf Hr HL HS. exists (ceil_div begin (Z.of_nat M)). split; [intros i; apply begin_number; exact HM|].
  unfold view_interfaces. set (fo' := {| o_begin := o_begin fo; o_end := o_end fo; o_ext := Some (Utils.dflt ".xvg"%string (o_ext fo)); o_outext := o_outext fo |}).
  destruct (groups_run (fun s => exists_path d (os_path s)) base "" M false fo' n HM) as (out0 & _ & HG); [exact Hr|]. rewrite HG by exact Hf. clear HG.
  change (Utils.f_begin (Utils.pop_fileopts fo')) with begin. rewrite loop_unsaved with (vs := vs); [reflexivity| |].
  - intros i g v Hg Hv. rewrite nth_error_map in Hg. assert (i < Nat.div n M)%nat as Hi by (rewrite <- HL; apply nth_error_Some; congruence).
    rewrite (nth_error_nth' _ 0%nat) in Hg by (rewrite seq_length; exact Hi). rewrite seq_nth in Hg by exact Hi. cbn [option_map Nat.add] in Hg. injection Hg as <-. cbn [fst]. split.
    + intros C. apply map_eq_nil in C. exact (numbers_ne _ _ HM C).
    + exact (HS i v Hv).
  - rewrite map_length, seq_length. symmetry. exact HL.
Qed.
Print Assumptions C83_run.
(** The average of files which are interfaces, whatever they are. *)
Theorem C83_average : forall l, l <> [] -> (forall i, In i l -> well_formed i) -> exists s, is_average l s.
Proof. intros l H1 H2. destruct (C38_common_layers l H1 H2) as (L & R & _ & H). exists (L ++ rev R), L, R. split; [reflexivity|exact H]. Qed.
Print Assumptions C83_average.

(** ** Saving of the averages *)
(** The claim is false for saved averages: the first group which can be averaged ends the run with a KeyError.  Its output path was prepared, so an earlier file is kept under a backup name,
    but nothing is written. *)
Theorem C83_saving : forall ffuel d base M save_xvg save_fig figext fo n k s, wf d -> (0 < M)%nat -> save_xvg <> ""%string ->
  let begin := match o_begin fo with Some b => b | None => 1%Z end in
  let e := match o_end fo with Some e => e | None => Inf end in
  let ext := match o_ext fo with Some x => x | None => ".xvg"%string end in
  let outext := match o_outext fo with Some x => x | None => ext end in
  (n + 1 < ffuel)%nat -> run_length (fun z => match e with Upto m => (z <= m)%Z | Inf => True end /\ exists_path d (os_path (fname base z ext)) = true) begin n ->
  (k < Nat.div n M)%nat -> (forall i, (i < k)%nat -> group_shows d (group_names base ext begin M i) None) -> group_shows d (group_names base ext begin M k) (Some s) ->
  exists K d', bundle_output begin M false k K /\ view_interfaces ffuel d base (Z.of_nat M) save_xvg save_fig figext fo = (d', [], Err KeyErr) /\
    exists_path d' (os_path (fname save_xvg K outext)) = false /\ wf d' /\ Permutation (contents d') (contents d) /\
    (forall q, exists_path d q = true -> q <> os_path (fname save_xvg K outext) -> Utils.lookup (files d') q = Utils.lookup (files d) q).
Proof.
  intros ffuel d base M save_xvg save_fig figext fo n k s Hw HM Hx begin e ext outext Hf Hr Hk HN HS.
  unfold view_interfaces. set (fo' := {| o_begin := o_begin fo; o_end := o_end fo; o_ext := Some (Utils.dflt ".xvg"%string (o_ext fo)); o_outext := o_outext fo |}).
  destruct (groups_run (fun s => exists_path d (os_path s)) base save_xvg M false fo' n HM) as (out0 & HB & HG); [exact Hr|]. rewrite HG by exact Hf. clear HG.
  exists (out0 + Z.of_nat k)%Z. change (match o_ext fo' with Some x => x | None => ".dat"%string end) with ext. change (match o_outext fo' with Some x => x | None => ext end) with outext.
  change (match o_begin fo' with Some b => b | None => 1%Z end) with begin in *. change (Utils.f_begin (Utils.pop_fileopts fo')) with begin. clearbody begin outext ext. clear Hr Hf fo'.
  set (p := os_path (fname save_xvg (out0 + Z.of_nat k) outext)). destruct (prepare_effect d p Hw) as (ops & Hops & Heff). specialize (Heff ops [] ltac:(rewrite app_nil_r; reflexivity)). cbv zeta in Heff. destruct Heff as (W & P & F & G).
  exists (exec_ops d ops). split; [apply HB|]. split; [|split; [exact (G eq_refl)|split; [exact W|split; [exact P|intros q A B; exact (F q B A)]]]].
  set (grp := fun i => (map (fun k0 => fname base k0 ext) (numbers (bundle_start begin M false i) M), fname save_xvg (out0 + Z.of_nat i) outext)).
  match goal with |- context [view_loop _ _ _ ?z d (map ?g _)] => change g with grp; generalize z end. intros K0. change (bundles n M false) with (Nat.div n M).
  assert (forall j a K0, (a + j = k)%nat -> forall rest, view_loop save_xvg save_fig figext K0 d (map grp (seq a j) ++ grp k :: rest) = (exec_ops d ops, ([], []), Some KeyErr)) as E.
  { induction j as [|j IH]; intros a K1 Ha rest.
    - cbn [seq map app view_loop]. unfold grp at 1. unfold group_names in HS. rewrite (group_ok d _ s); [|intros C; apply map_eq_nil in C; exact (numbers_ne _ _ HM C)|exact HS].
      destruct (String.eqb_spec save_xvg ""); [contradiction|]. fold p. rewrite Hops. reflexivity.
    - cbn [seq map app view_loop]. unfold grp at 1. destruct (group_err d _ (HN a ltac:(lia))) as (x & Ex). unfold group_names in Ex. rewrite Ex. apply IH. lia. }
  replace (seq 0 (n / M)) with (seq 0 k ++ k :: seq (S k) (n / M - S k)).
  - rewrite map_app. cbn [map]. rewrite (E k 0%nat K0) by lia. reflexivity.
  - replace (n / M)%nat with (k + S (n / M - S k))%nat at 2 by lia. rewrite seq_app. reflexivity.
Qed.
Print Assumptions C83_saving.

(** ** An example *)
Definition ex_file (ls : list string) : string := string_of (flat_map (fun l => txt l ++ nl) ls).
Definition ex_disk : disk := {| files := [(os_path "i_00001.xvg", ex_file ["# x y"; "0.0 0.0"; "1.0 2.0"; "4.0 2.0"; "5.0 0.0"]%string);
                                          (os_path "i_00002.xvg", ex_file ["2.0 0.0"; "3.0 1.0"; "4.0 1.0"; "9.0 0.0"]%string);
                                          (os_path "i_00003.xvg", ex_file ["3.0 4.0"]%string);
                                          (os_path "i_00004.xvg", ex_file ["0.0 0.0"; "0.0 3.0"; "2.0 3.0"; "2.0 0.0"]%string);
                                          (os_path "i_00005.xvg", ex_file ["0.0 0.0"; "0.0 3.0"; "2.0 3.0"; "2.0 0.0"]%string); (os_path "a_00001.xvg", "old"%string)]; Utils.dirs := [] |}.
Definition ex_fo : fopts := {| o_begin := None; o_end := None; o_ext := None; o_outext := None |}.
Lemma ex_wf : wf ex_disk.
Proof. unfold wf, ex_disk. cbn [files map fst]. repeat constructor; vm_compute; intuition discriminate. Qed.
Lemma ex_range : run_length (fun z => True /\ exists_path ex_disk (os_path (fname "i_" z ".xvg")) = true) 1 5.
Proof.
  split.
  - intros k Hk. split; [exact I|]. assert (k = 0 \/ k = 1 \/ k = 2 \/ k = 3 \/ k = 4)%Z as [-> | [-> | [-> | [-> | ->]]]] by lia; vm_compute; reflexivity.
  - intros [_ C]. vm_compute in C. discriminate.
Qed.
Definition ex_1 : interface := (map ZQ [0; 1; 4; 5]%Z, map ZQ [0; 2; 2; 0]%Z).
Definition ex_2 : interface := (map ZQ [2; 3; 4; 9]%Z, map ZQ [0; 1; 1; 0]%Z).
Lemma ex_good i : In i [ex_1; ex_2] -> well_formed i.
Proof. intros [<- | [<- | []]]; (split; [reflexivity|split; apply nodupb_spec; vm_compute; reflexivity]). Qed.
(** The first two interfaces share the height 0 only; the third file cannot be read, so the second group is skipped; the fifth file is not in a full group. *)
Example C83_ex : exists s, is_average [ex_1; ex_2] s /\ s = [(0, 1); (0, ZQ 7)] /\
  view_interfaces 10 ex_disk "i_" 2 "" (Some "fig_"%string) ".png" ex_fo = (ex_disk, [(Some "fig_00001.png"%string, s)], Ok ([map snd s], [map fst s])).
Proof.
  destruct (C83_average [ex_1; ex_2] ltac:(discriminate) ex_good) as (s & Hs). exists s. split; [exact Hs|].
  assert (s = [(0, 1); (0, ZQ 7)]) as Es.
  { assert ([ex_1; ex_2] <> []) as NE by discriminate; pose proof (average_unique _ _ NE ex_good Hs) as E.
    assert (match average_interfaces [ex_1; ex_2] with Ok [(a, b); (c, d)] => qeq a 0 && qeq b 1 && qeq c 0 && qeq d (ZQ 7) | _ => false end = true)%bool as V by (vm_compute; reflexivity).
    rewrite E in V. destruct s as [|[a b] [|[c d] [|? ?]]]; try discriminate. repeat match goal with H : (_ && _)%bool = true |- _ => apply Bool.andb_true_iff in H as [? ?] end.
    repeat match goal with H : qeq _ _ = true |- _ => apply qeq_true in H; subst end. reflexivity. }
  split; [exact Es|].
  destruct (C83_run 10 ex_disk "i_" 2 (Some "fig_"%string) ".png" ex_fo 5 [Some s; None] ltac:(lia) ltac:(lia) ex_range eq_refl) as (K & HK & E).
  - intros [|[|i]] v Hv; cbn [nth_error] in Hv; [injection Hv as <-|injection Hv as <-|destruct i; discriminate].
    + exists [ex_1; ex_2]. split; [|exact Hs]. constructor; [|constructor; [|constructor]]; (split; [vm_compute; reflexivity|apply ex_good; cbn; auto]).
    + exists "i_00003.xvg"%string. split; [left; vm_compute; reflexivity|]. left. eexists. vm_compute. reflexivity.
  - specialize (HK 0%nat). change (2 * (K + 0 - 1) < 1 + 0 <= 2 * (K + 0))%Z in HK. assert (K = 1%Z) as -> by lia. change (Z.of_nat 2) with 2%Z in E. rewrite E, Es. vm_compute. reflexivity.
Qed.
(** What is returned when the averages are not saved is not returned when they are. *)
Theorem C83_saving_refuted : ~ (forall ffuel d base average save_xvg save_fig figext fo figs r, wf d -> view_interfaces ffuel d base average "" save_fig figext fo = (d, figs, Ok r) ->
  exists d', view_interfaces ffuel d base average save_xvg save_fig figext fo = (d', figs, Ok r)).
Proof.
  intros H. destruct C83_ex as (s & Hs & _ & E). destruct (H _ _ _ _ "a_"%string _ _ _ _ _ ex_wf E) as (d' & E').
  assert (match snd (view_interfaces 10 ex_disk "i_" 2 "a_" (Some "fig_"%string) ".png" ex_fo) with Ok _ => true | Err _ => false end = false) as V by (vm_compute; reflexivity).
  rewrite E' in V. discriminate.
Qed.
Print Assumptions C83_saving_refuted.

(** ** C85: interfaces side by side *)
(** The frame of one edge: a row for every height which an interface has there, from below; in column j the x value of interface j, missing where it has no such height. *)
Definition frame_shows (point : interface -> Qc -> Qc -> Prop) (l : list interface) (f : frame) : Prop :=
  increasing (map fst f) /\ (forall y, In y (map fst f) <-> exists i x, In i l /\ point i y x) /\
  forall y row, In (y, row) f -> Forall2 (fun i v => match v with Some x => point i y x | None => forall x, ~ point i y x end) l row.
Lemma frame_ok (g : interface -> series) (point : interface -> Qc -> Qc -> Prop) l : (forall i, In i l -> NoDup (map fst (g i))) ->
  (forall i y x, In i l -> lookup y (g i) = Some x <-> point i y x) -> exists f, frame_of (map g l) = Ok f /\ frame_shows point l f.
Proof.
  intros ND HP. unfold frame_of. rewrite (proj2 (forallb_forall _ _)).
  2:{ intros s Hs. apply in_map_iff in Hs as (i & <- & Hi). apply nodupb_spec. exact (ND i Hi). }
  eexists. split; [reflexivity|]. split; [rewrite map_map; cbn [fst]; rewrite map_id; apply unique_inc|]. split.
  - intros y. rewrite map_map. cbn [fst]. rewrite map_id, unique_in. rewrite in_concat. split.
    + intros (ks & Hk & Hy). apply in_map_iff in Hk as (s & <- & Hs). apply in_map_iff in Hs as (i & <- & Hi). apply in_map_iff in Hy as ([y' x] & E & Hx). cbn [fst] in E. subst y'.
      exists i, x. split; [exact Hi|]. apply (proj1 (HP i y x Hi)). apply (proj2 (lookup_spec _ _ _ (ND i Hi))). exact Hx.
    + intros (i & x & Hi & Hx). apply (proj2 (HP i y x Hi)) in Hx. apply (proj1 (lookup_spec _ _ _ (ND i Hi))) in Hx. exists (map fst (g i)). split; [apply in_map, in_map; exact Hi|].
      apply in_map_iff. exists (y, x). auto.
  - intros y row Hr. apply in_map_iff in Hr as (y' & E & _). assert (y' = y) as -> by congruence. assert (row = map (lookup y) (map g l)) as -> by congruence. rewrite map_map. clear E ND.
    induction l as [|i l IH]; cbn [map]; constructor.
    + destruct (lookup y (g i)) as [x|] eqn:E; [apply (proj1 (HP i y x (or_introl eq_refl))); exact E|]. intros x C. apply (proj2 (HP i y x (or_introl eq_refl))) in C. congruence.
    + apply IH. intros j z x Hj. apply HP. right. exact Hj.
Qed.
Theorem C85_frames : forall l : list interface, (forall i, In i l -> well_formed i) ->
  exists left right, combine_interfaces l = Ok (left, right) /\ frame_shows left_point l left /\ frame_shows right_point l right.
Proof.
  intros l HW.
  destruct (frame_ok left_half left_point l) as (fl & El & Sl).
  { intros i Hi. destruct (HW i Hi) as (HL & N1 & _). rewrite left_keys by exact HL. exact N1. }
  { intros i y x Hi. apply InterfaceViewProps.left_in. exact (HW i Hi). }
  destruct (frame_ok right_half right_point l) as (fr & Er & Sr).
  { intros i Hi. destruct (HW i Hi) as (HL & _ & N2). rewrite right_keys by exact HL. exact N2. }
  { intros i y x Hi. apply InterfaceViewProps.right_in. exact (HW i Hi). }
  exists fl, fr. split; [|auto]. unfold combine_interfaces, all_coords_to_edges. rewrite (rmapM_ok_map _ (fun i => (left_half i, right_half i))).
  - cbn [rbind fst snd]. rewrite !map_map.
    match goal with |- (do _ <- frame_of ?a; do _ <- frame_of ?b; _) = _ => change a with (map left_half l); change b with (map right_half l) end. unfold interface in *. rewrite El. cbn [rbind]. rewrite Er. reflexivity.
  - intros i Hi. apply sides_ok. apply (HW i Hi).
Qed.
Print Assumptions C85_frames.
(** A height twice on an edge, or different numbers of x and y values: an exception. *)
Theorem C85_repeats : forall (l : list interface) i, In i l -> ~ well_formed i -> exists e, combine_interfaces l = Err e.
Proof.
  intros l i Hi HN. destruct (combine_interfaces l) as [[fl fr]|e] eqn:E; [|eauto]. exfalso. apply HN.
  unfold combine_interfaces, all_coords_to_edges in E. destruct (rmapM get_boundary_sides l) as [edges|] eqn:EM; [|discriminate]. cbn [rbind fst snd] in E. unfold frame_of in E.
  destruct (forallb (fun s => nodupb (map fst s)) (map fst edges)) eqn:F1; [|discriminate]. cbn [rbind] in E. destruct (forallb (fun s => nodupb (map fst s)) (map snd edges)) eqn:F2; [|discriminate]. clear E.
  assert (average_interfaces l <> Err ValueErr /\ exists s, average_interfaces l = Ok s) as [_ (s & A)].
  { unfold average_interfaces. rewrite EM. cbn [rbind]. unfold average_edge. rewrite F1, F2. cbn [rbind]. split; [discriminate|eauto]. }
  assert (well_formed i \/ ~ well_formed i) as [W|W]; [|exact W|destruct (average_repeats l i Hi W) as (e & C); congruence].
  right. exact HN.
Qed.
Print Assumptions C85_repeats.
Example C85_ex : exists left right, combine_interfaces [ex_1; ex_2] = Ok (left, right) /\ map fst left = [0; 1; ZQ 2].
Proof.
  destruct (C85_frames [ex_1; ex_2] ex_good) as (fl & fr & E & _). exists fl, fr. split; [exact E|].
  assert (match combine_interfaces [ex_1; ex_2] with Ok (fl, _) => match map fst fl with [a; b; c] => (qeq a 0 && qeq b 1 && qeq c (ZQ 2))%bool | _ => false end | _ => false end = true) as V by (vm_compute; reflexivity).
  rewrite E in V. destruct (map fst fl) as [|a [|b [|c [|? ?]]]]; try discriminate V. apply Bool.andb_true_iff in V as [V C]. apply Bool.andb_true_iff in V as [A B]. apply qeq_true in A, B, C. subst. reflexivity.
Qed.
