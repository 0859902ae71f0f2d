(** Properties C75 (runs of view_spreading) and C76 (fits of files). *)
From Coq Require Import String Ascii Permutation Reals.
From Verif.Base Require Import QcX QcR Res Np Bytes.
From Verif.Model Require Utils Flow Average.
From Verif.Model Require Import Bins Text Gmx Simple Formats Table SpreadingView PowerFit InterfaceFiles SpreadingFiles FitFiles Spreading.
From Verif.Spec Require Import FilesSpec DiskSpec TableSpec.
From Verif.Proofs Require Import UtilsDisk TextP SimpleP FormatsP TableP InterfaceFilesP SpreadingReadP.
From Verif.Props Require Import PowerFitProps SpreadingFilesProps.
From Verif.Props Require InterfaceFilesProps.
Import InterfaceFilesProps(one_line).
Import Utils(disk, path, files, lookup, exists_path).
Local Open Scope Qc_scope.
Local Open Scope list_scope.
Local Notation length := List.length.

(** ** C75: a run *)
Lemma digits_clean s : Forall is_digit s -> clean s.
Proof. intros H. split; [|apply digits_at_free; exact H]. eapply Forall_impl; [|exact H]. unfold is_digit. cbn. lia. Qed.
Lemma clean_app a b : clean a -> clean b -> clean (a ++ b).
Proof. intros [A1 A2] [B1 B2]. split; [apply one_line_app; assumption|apply at_free_app; auto]. Qed.
Lemma curve_name_clean n k : clean (bytes_of n) -> clean (bytes_of (n ++ "." ++ Utils.dec (N.of_nat k))).
Proof.
  intros H. unfold bytes_of in *. rewrite !txt_app. apply clean_app; [exact H|]. apply clean_app; [split; [lit|flit]|]. apply digits_clean, dec_digits.
Qed.
Lemma plain_names n f ss : read_plain_file n f = Ok ss -> clean (bytes_of n) -> Forall (fun s => clean (bytes_of (s_name s))) ss.
Proof.
  unfold read_plain_file. destruct (loadtxt f) as [rows|]; [|discriminate]. cbn [rbind]. intros H Hn.
  assert (forall l rows ts, Forall (fun s => clean (bytes_of (s_name s))) (map (fun j => get_series (column rows j) ts n j) l)) as G.
  { intros l rs ts. apply Forall_forall. intros s Hs. apply in_map_iff in Hs. destruct Hs as (j & <- & _). apply curve_name_clean. exact Hn. }
  destruct rows as [|r [|r2 rows]]; [discriminate|destruct r as [|? [|? ?]]; discriminate|].
  cbn iota in H. destruct r as [|a [|b r]]; cbn iota in H; (match type of H with (if ?c then _ else _) = _ => destruct c; [discriminate|] end); (match type of H with Ok ?x = Ok ?y => assert (x = y) as <- by congruence end); apply G.
Qed.
Lemma xvg_names n gs : clean (bytes_of n) -> forall k ss, get_series_data n k gs = Ok ss -> Forall (fun s => clean (bytes_of (s_name s))) ss.
Proof.
  intros Hn. induction gs as [|g gs IH]; intros k ss H; cbn [get_series_data] in H; [injection H as <-; constructor|].
  destruct (graph_rows g) as [rows|]; [|discriminate]. cbn [rbind] in H. destruct (get_series_data n _ gs) as [rest|] eqn:E; [|discriminate]. cbn [rbind] in H. injection H as <-.
  apply Forall_app. split; [|exact (IH _ _ E)]. apply Forall_forall. intros s Hs. apply in_map_iff in Hs. destruct Hs as (j & <- & _). apply curve_name_clean. exact Hn.
Qed.
Lemma data_names d : forall fs, (forall f, In f fs -> clean (bytes_of f)) -> Forall (fun s => clean (bytes_of (s_name s))) (fst (read_spreading_data d fs)).
Proof.
  intros fs. destruct (C74_warning d fs) as [_ ->]. intros H. apply Forall_flat_map. apply Forall_forall. intros f Hf. specialize (H f Hf).
  destruct (read_spreading_file f (Average.content d f)) as [ss|] eqn:E; [|constructor]. unfold read_spreading_file in E. destruct (Average.content d f) as [c|]; [|discriminate].
  destruct (read_plain_file f c) as [s'|] eqn:EP; [injection E as <-; exact (plain_names _ _ _ EP H)|]. exact (xvg_names f _ H _ _ E).
Qed.
Lemma finite_names data named : rmapM finite_series data = Ok named -> map fst named = map s_name data.
Proof.
  revert named. induction data as [|s data IH]; intros named H; cbn [rmapM] in H; [injection H as <-; reflexivity|].
  unfold finite_series in H at 1. destruct (rmapM _ (s_points s)) as [pts|]; [|discriminate]. cbn [rbind] in H. destruct (rmapM finite_series data) as [n'|]; [|discriminate]. cbn [rbind] in H. injection H as <-.
  cbn [map fst]. f_equal. apply IH. reflexivity.
Qed.
Lemma named_clean data sync tau R out : Forall (fun p => clean (bytes_of (fst p))) data -> combine_named data sync tau R = Ok out -> Forall (fun p => clean (bytes_of (fst p))) out /\
  combine_spreading_data (map snd data) sync tau R = Ok (map snd out).
Proof.
  intros HD H. unfold combine_named in H. destruct (combine_spreading_data (map snd data) sync tau R) as [cs|]; [|discriminate]. cbn [rbind] in H. injection H as <-. split.
  - apply Forall_forall. intros [n c] Hin. apply in_combine_l in Hin. apply in_map_iff in Hin. destruct Hin as (k & <- & _). cbn [fst].
    assert (forall k, clean (bytes_of (nth k (map fst data) ""%string))) as N.
    { intros j. destruct (nth_in_or_default j (map fst data) ""%string) as [Hj| ->]; [|split; constructor]. apply in_map_iff in Hj. destruct Hj as (p & <- & Hp). exact (proj1 (Forall_forall _ _) HD p Hp). }
    unfold bc_nth. destruct (Nat.eqb _ 1); apply N.
  - apply f_equal. set (ns := map (fun k => bc_nth (map fst data) ""%string k) (seq 0 (length cs))). assert (length ns = length cs) as L by (unfold ns; rewrite map_length, seq_length; reflexivity). clearbody ns. clear -L. revert ns L. induction cs as [|c cs IH]; intros [|n ns] L; try discriminate; [reflexivity|].
    cbn [combine map snd]. injection L as L. rewrite <- IH by exact L. reflexivity.
Qed.
(** What view_spreading saves is read back: one curve for each one that is drawn, scaled and synchronised, in the same order, with the numbers that pandas shows.
    [seen c] are the numbers in the text [show c]. *)
Theorem C75_view : forall d inputs sync tau R out e show seen data warned named curves, wf d ->
  read_spreading_data d inputs = (data, warned) -> rmapM finite_series data = Ok named ->
  combine_spreading_data (map snd named) sync tau R = Ok curves -> out <> ""%string ->
  clean (e_module e) -> clean (e_date e) -> clean (e_version e) -> clean (e_cwd e) -> (forall f, In f inputs -> clean (bytes_of f)) ->
  (forall c, In c curves -> shows_points (show c) (seen c)) ->
  exists d', view_spreading d inputs sync tau R (Some (Some out)) e show = Ok (d', warned) /\ wf d' /\
    (forall q, exists_path d q = true -> q <> os_path out -> lookup (files d') q = lookup (files d) q) /\
    (exists t, Permutation (contents d') (contents d ++ [t])) /\
    exists series, read_spreading_data d' [out] = (series, []) /\ length series = length curves /\
      forall k c, nth_error curves k = Some c -> exists s, nth_error series k = Some s /\ s_points s = map (fun p => (Fin (fst p), Fin (snd p))) (seen c).
Proof.
  intros d inputs sync tau R out e show seen data warned named curves Hw HD HN HC Ho E1 E2 E3 E4 HI HS. unfold view_spreading. rewrite HD, HN. cbn [rbind].
  assert (Forall (fun p => clean (bytes_of (fst p))) named) as HCl.
  { pose proof (data_names d inputs HI) as H. rewrite HD in H. cbn [fst] in H. apply finite_names in HN. apply Forall_forall. intros p Hp.
    assert (In (fst p) (map s_name data)) as Hin by (rewrite <- HN; apply in_map; exact Hp). apply in_map_iff in Hin. destruct Hin as (s & <- & Hs). exact (proj1 (Forall_forall _ _) H s Hs). }
  assert (exists comb, combine_named named sync tau R = Ok comb) as [comb HCo] by (unfold combine_named; rewrite HC; eexists; reflexivity).
  destruct (named_clean _ _ _ _ _ HCl HCo) as [HCn HCs]. rewrite HC in HCs. injection HCs as EC. rewrite HCo. cbn [rbind]. destruct (String.eqb_spec out "") as [|_]; [contradiction|].
  set (shown := map (fun p => (bytes_of (fst p), show (snd p))) comb).
  assert (forall n, In n (map fst shown) -> clean n) as Hcl.
  { intros n Hin. unfold shown in Hin. rewrite map_map in Hin. apply in_map_iff in Hin. destruct Hin as (p & <- & Hp). cbn [fst]. exact (proj1 (Forall_forall _ _) HCn p Hp). }
  destruct (do_call_spec d (os_path out) [string_of (combined_text (combined_header e (map fst shown)) shown)] Hw) as (d' & E & W & P & L & O). rewrite E.
  exists d'. split; [reflexivity|]. split; [exact W|]. split; [intros q Hq Nq; apply O; assumption|]. split; [eexists; exact P|].
  destruct (C75_header e (map fst shown) E1 E2 E3 E4) as [HH1 HH2]; [apply Forall_forall; exact Hcl|].
  destruct (C75_read_back out (combined_header e (map fst shown)) shown (map seen curves) HH1 HH2) as (series & RD & LS & HP).
  - intros n Hin. exact (proj2 (Hcl n Hin)).
  - rewrite EC. assert (forall c, In c (map snd comb) -> shows_points (show c) (seen c)) as HS' by (rewrite <- EC; exact HS). unfold shown. clear -HS'. induction comb as [|p comb IH]; cbn [map]; constructor; [apply HS'; left; reflexivity|]. apply IH. intros c Hc. apply HS'. right. exact Hc.
  - exists series. split.
    + cbn [read_spreading_data]. unfold Average.content. rewrite L. cbn [option_map String.concat]. rewrite bytes_string, RD. rewrite app_nil_r. reflexivity.
    + rewrite map_length in LS. split; [exact LS|]. intros k c Hk. destruct (HP k (seen c)) as (s & Hs & _ & Hp); [rewrite nth_error_map, Hk; reflexivity|]. exists s. auto.
Qed.
Print Assumptions C75_view.
(** Refuted: the argument cannot be left out. *)
Theorem C75_no_output_refuted : forall d inputs sync tau R e show data warned named curves,
  read_spreading_data d inputs = (data, warned) -> rmapM finite_series data = Ok named -> combine_spreading_data (map snd named) sync tau R = Ok curves ->
  view_spreading d inputs sync tau R None e show = Err KeyErr.
Proof.
  intros d inputs sync tau R e show data warned named curves HD HN HC. unfold view_spreading. rewrite HD, HN. cbn [rbind]. unfold combine_named. rewrite HC. reflexivity.
Qed.
Print Assumptions C75_no_output_refuted.
(** With None or an empty path nothing is written. *)
Theorem C75_nothing_saved : forall d inputs sync tau R save e show d' warned, save = None \/ save = Some ""%string ->
  view_spreading d inputs sync tau R (Some save) e show = Ok (d', warned) -> d' = d.
Proof.
  intros d inputs sync tau R save e show d' warned HS H. unfold view_spreading in H. destruct (read_spreading_data d inputs) as [data w]. destruct (rmapM finite_series data) as [named|]; [|discriminate]. cbn [rbind] in H.
  destruct (combine_named named sync tau R) as [cs|]; [|discriminate]. cbn [rbind] in H. destruct HS as [-> | ->]; injection H as <- _; reflexivity.
Qed.
Print Assumptions C75_nothing_saved.
(** Refuted for a curve without points, which pandas shows as 'Series([], )': the whole file cannot be read, whatever other curves are in it. *)
Theorem C75_empty_curve_refuted : forall name header names texts lss ptss rest, Forall comment_line header -> Forall at_free header -> Forall at_free names ->
  Forall2 (fun t ls => t ++ nl = flat_map (fun l => l ++ nl) ls) texts lss -> Forall2 (Forall2 shown_point) lss ptss -> Forall (fun t => exists ls, t ++ nl = flat_map (fun l => l ++ nl) ls /\ Forall at_free ls) rest ->
  exists err, read_spreading_file name (Some (flat_map (fun l => l ++ nl) (header ++ comment_lines names) ++ graphs_text 0 (texts ++ txt "Series([], )" :: rest))) = Err err.
Proof.
  intros name header names texts lss ptss rest Hh Ha Hn HT HS HR. unfold read_spreading_file. destruct (plain_fails name header names (graphs_text 0 (texts ++ txt "Series([], )" :: rest)) Hh) as [e ->].
  assert (exists rls, Forall2 (fun t ls => t ++ nl = flat_map (fun l => l ++ nl) ls) rest rls /\ Forall (Forall at_free) rls) as (rls & R1 & R2).
  { clear -HR. induction HR as [|t rest (ls & E & F) HR (rls & A & B)]; [exists []; split; constructor|]. exists (ls :: rls). split; constructor; assumption. }
  unfold read_xvg_file, graphs_of. rewrite split_lines by (apply comment_quiet; assumption).
  rewrite (split_graphs (lss ++ [txt "Series([], )"] :: rls)).
  - cbn [tl]. clear HT Hn Ha Hh e.
    assert (forall i num, exists err, get_series_data name num (map (fun g => tl (lines g)) (parts_from i (lss ++ [txt "Series([], )"] :: rls))) = Err err) as G.
    { induction HS as [|ls pts lss ptss HP HS IH]; intros i num.
      - cbn [app parts_from map get_series_data]. rewrite part_lines by (repeat constructor). cbn [tl]. exists ValueErr. destruct rls; reflexivity.
      - cbn [app parts_from map get_series_data]. destruct (graph_rows _) as [rows|er]; [|exists er; reflexivity]. cbn [rbind]. destruct (IH (S i) (num + (length (hd [] rows) - 1))%nat) as [er ->]. exists er. reflexivity. }
    apply G.
  - apply Forall_app. split; [clear -HS; induction HS as [|? ? ? ? HP ? IH]; constructor; [induction HP as [|? ? ? ? (_ & HA & _) ? IHP]; constructor; assumption|exact IH]|].
    constructor; [|exact R2]. constructor; [|constructor]. flit.
  - apply Forall2_app; [exact HT|]. constructor; [reflexivity|exact R1].
Qed.
Print Assumptions C75_empty_curve_refuted.

(** ** C76 *)
(** The fits of files: one pair of parameters for each curve that is read, in the order of files and columns. *)
Theorem C76_one_per_curve : forall d inputs lims params, fit_spreading_data d inputs lims params ->
  length params = length (fst (read_spreading_data d inputs)) /\
  forall k s, nth_error (fst (read_spreading_data d inputs)) k = Some s -> exists pts a b, nth_error params k = Some (a, b) /\
    s_points s = map (fun p => (Fin (fst p), Fin (snd p))) pts /\ fit_series pts lims a b.
Proof.
  intros d inputs lims params (named & HN & HF). unfold fitting_parameters in HF. set (data := fst (read_spreading_data d inputs)) in *. clearbody data. revert named HN params HF.
  induction data as [|s data IH]; intros named HN params HF; cbn [rmapM] in HN.
  - injection HN as <-. inversion HF; subst. split; [reflexivity|]. intros [|k]; discriminate.
  - unfold finite_series in HN at 1. destruct (rmapM _ (s_points s)) as [pts|] eqn:EP; [|discriminate]. cbn [rbind] in HN. destruct (rmapM finite_series data) as [n'|]; [|discriminate]. cbn [rbind] in HN. injection HN as <-.
    inversion HF as [|? [a b] ? params' HA HF']; subst. destruct (IH n' eq_refl params' HF') as [L H]. cbn [length]. split; [rewrite L; reflexivity|].
    intros [|k] s' Hs; cbn [nth_error] in *; [|apply H; exact Hs]. injection Hs as <-. exists pts, a, b. split; [reflexivity|]. split; [|exact HA].
    clear -EP. revert pts EP. induction (s_points s) as [|[t r] l IH]; intros pts EP; cbn [rmapM fst snd] in EP; [injection EP as <-; reflexivity|].
    destruct t as [t| | |]; try discriminate. cbn [finite rbind] in EP. destruct r as [r| | |]; try discriminate. cbn [finite rbind] in EP.
    destruct (rmapM _ l) as [m|]; [|discriminate]. cbn [rbind] in EP. injection EP as <-. cbn [map fst snd]. f_equal. apply IH. reflexivity.
Qed.
Print Assumptions C76_one_per_curve.
(** Curves which are exact power laws at the times of the fit give their parameters. *)
Theorem C76_recovers : forall d inputs lims params k s pts a b, fit_spreading_data d inputs lims params ->
  nth_error (fst (read_spreading_data d inputs)) k = Some s -> s_points s = map (fun p => (Fin (fst p), Fin (snd p))) pts ->
  (0 < a)%R -> two_times (fit_points pts lims) -> (forall p, In p (fit_points pts lims) -> QR (snd p) = (a * Rpower (QR (fst p)) b)%R) ->
  nth_error params k = Some (a, b).
Proof.
  intros d inputs lims params k s pts a b HF Hs HP Ha H2 HE. destruct (C76_one_per_curve _ _ _ _ HF) as [_ H]. destruct (H k s Hs) as (pts' & a' & b' & Hk & HP' & HS).
  assert (pts' = pts) as ->.
  { rewrite HP in HP'. clear -HP'. revert pts' HP'. induction pts as [|p pts IH]; intros [|q pts'] H; try discriminate; [reflexivity|]. cbn [map] in H. assert (fst p = fst q /\ snd p = snd q) as [A B] by (split; congruence).
    f_equal; [destruct p, q; cbn in *; congruence|]. apply IH. congruence. }
  apply (C59_recovers pts lims a b Ha H2 HE) in HS. destruct HS as [-> ->]. exact Hk.
Qed.
Print Assumptions C76_recovers.
(** Refuted: a collected file has one droplet, but gets three pairs; the second and third are fits of the positions of its edges. *)
Theorem C76_edges_refuted : forall d out header rows lims params, lookup (files d) (os_path out) = Some (string_of (spreading_text header rows)) ->
  Forall comment_line header -> (2 <= length rows)%nat -> fit_spreading_data d [out] lims params -> length params = 3%nat.
Proof.
  intros d out header rows lims params L Hh Hl HF. destruct (C76_one_per_curve _ _ _ _ HF) as [-> _]. destruct (C74_read_back out header rows Hh Hl) as (ts & rs & ls & xs & RD & _).
  cbn [read_spreading_data]. unfold Average.content. rewrite L. cbn [option_map]. rewrite bytes_string, RD. reflexivity.
Qed.
Print Assumptions C76_edges_refuted.
(** The fitted curves: the parameters of each curve at its own times. *)
Theorem C76_fitted : forall show params data out_lims, length params = length data ->
  length (get_fitted_data show params data out_lims) = length data /\
  forall k n c a b, nth_error data k = Some (n, c) -> nth_error params k = Some (a, b) ->
    nth_error (get_fitted_data show params data out_lims) k = Some ((n ++ show (a, b))%string, fitted_series c out_lims a b).
Proof.
  intros show params data out_lims L. unfold get_fitted_data. rewrite map_length, combine_length. split; [lia|]. intros k n c a b Hd Hp. rewrite nth_error_map.
  assert (nth_error (combine params data) k = Some ((a, b), (n, c))) as ->; [|reflexivity].
  clear L. revert k data Hd Hp. induction params as [|p params IH]; intros [|k] [|q data] Hd Hp; try discriminate; cbn [combine nth_error] in *; [congruence|]. apply IH; assumption.
Qed.
Print Assumptions C76_fitted.
