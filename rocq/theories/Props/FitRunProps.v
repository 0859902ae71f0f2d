(** C94: the file of fitted curves. *)
From Coq Require Import String Ascii Reals Permutation Lia.
From Verif.Base Require Import QcX QcR Res Np Bytes.
From Verif.Model Require Import Click CurveFigures FitRuns.
From Verif.Model Require Import SpreadingFiles InterfaceFiles Formats.
From Verif.Model Require Utils Gmx Text RealText SpreadingView FitFiles PowerFit Average.
From Verif.Spec Require Import DiskSpec.
From Verif.Proofs Require Import UtilsDisk TextP SimpleP FormatsP TableP RealTextP InterfaceFilesP SpreadingReadP.
From Verif.Props Require Import FigureProps ViewRunProps CurveFigureProps SpreadingFilesProps SpreadingRunProps.
From Verif.Props Require PowerFitProps InterfaceFilesProps.
Import InterfaceFilesProps(one_line).
Import Utils(disk, path, files, lookup, exists_path).
Import Gmx(nl).
Local Open Scope string_scope.
Local Open Scope list_scope.
Local Notation length := List.length.

(** The curve of a fit: the power law at the times of the series inside the limits. *)
Definition power_law (s : SpreadingView.curve) (out_lims : FitRuns.limits) (a k : R) : list (R * R) := map (fun t => (QR t, (a * Rpower (QR t) k)%R)) (SpreadingView.fitted_times s out_lims).
(** What the series and its fit are called. *)
Definition fit_name (n : string) (a k : R) : string := (n ++ " " ++ parameters a k)%string.
Lemma fmtR_clean x : clean (RealText.fmt_fixedR 3 x).
Proof.
  destruct (fmt_fixedR_as 3 x ltac:(lia)) as (q & -> & _). split; [apply fixed_one_line|apply fixed_at_free; lia].
Qed.
Lemma bytes_string_of l : bytes_of (string_of l) = l. Proof. apply bytes_string. Qed.
Lemma bytes_app a b : bytes_of (a ++ b)%string = bytes_of a ++ bytes_of b.
Proof. unfold bytes_of. apply txt_app. Qed.
Lemma fit_name_clean n a k : clean (bytes_of n) -> clean (bytes_of (fit_name n a k)).
Proof.
  intros H. unfold fit_name, parameters, decimals. rewrite !bytes_app, !bytes_string_of. apply clean_app; [exact H|]. apply clean_app; [split; [lit|flit]|].
  apply clean_app; [split; [lit|flit]|]. apply clean_app; [apply fmtR_clean|]. apply clean_app; [split; [lit|flit]|]. apply fmtR_clean.
Qed.
Lemma fits_named params data out_lims : map (fun p => (fst p, snd p)) (FitFiles.get_fitted_data fit_text params data out_lims) =
  map (fun p => (fit_name (fst (snd p)) (fst (fst p)) (snd (fst p)), power_law (snd (snd p)) out_lims (fst (fst p)) (snd (fst p)))) (combine params data).
Proof.
  unfold FitFiles.get_fitted_data. rewrite map_map. apply map_ext. intros [[a k] [n s]]. reflexivity.
Qed.
Lemma flat_in {A B} (f : A -> list B) l x : In x l -> exists before after, flat_map f l = before ++ f x ++ after.
Proof.
  intros H. apply in_split in H. destruct H as (l1 & l2 & ->). exists (flat_map f l1), (flat_map f l2). rewrite flat_map_app. reflexivity.
Qed.
(** [lims] and [out_lims] are pairs, each bound of which may be None, as both are by default.
    The file has the name of every series with its parameters, and the curves of the fits are read from it, in the order of the series; nothing is lost.
    [seen c] are the numbers in the text [show c]. *)
Theorem C94_saved : forall lib d inputs lims out_lims out e repr show seen named params kw, wf d ->
  rmapM finite_series (fst (read_spreading_data d inputs)) = Ok named -> FitFiles.fit_spreading_data d inputs (Some lims) params -> out <> "" ->
  clean (e_module e) -> clean (e_date e) -> clean (e_version e) -> clean (e_cwd e) -> (forall l, clean (repr l)) -> (forall f, In f inputs -> clean (bytes_of f)) ->
  (forall i n s a k, nth_error named i = Some (n, s) -> nth_error params i = Some (a, k) -> shows_points (show (power_law s (Some out_lims) a k)) (seen i)) ->
  exists d' content f x, fit_run lib d inputs (Some lims) (Some out_lims) (Some out) e repr show params kw = (d', f, match x with Some x => Err x | None => Ok params end) /\
    fit_figure lib named (Some out_lims) params kw = (f, x) /\ wf d' /\
    (forall q, exists_path d q = true -> q <> os_path out -> lookup (files d') q = lookup (files d) q) /\
    lookup (files d') (os_path out) = Some (string_of content) /\ Permutation (contents d') (contents d ++ [string_of content]) /\
    (forall i n s a k, nth_error named i = Some (n, s) -> nth_error params i = Some (a, k) ->
       exists before after, content = before ++ (txt "#   '" ++ bytes_of n ++ txt " " ++ bytes_of (parameters a k) ++ txt "'" ++ nl) ++ after) /\
    (exists before after, content = before ++ (txt "#   Fit limits: " ++ repr (fst lims) ++ txt ", " ++ repr (snd lims) ++ nl) ++
       (txt "#   Draw limits: " ++ repr (fst out_lims) ++ txt ", " ++ repr (snd out_lims) ++ nl) ++ after) /\
    exists series, read_spreading_data d' [out] = (series, []) /\ length series = length named /\
      forall i, (i < length named)%nat -> exists s, nth_error series i = Some s /\ s_points s = map (fun p => (Fin (fst p), Fin (snd p))) (seen i).
Proof.
  intros lib d inputs lims out_lims out e repr show seen named params kw Hw HN (data & HN' & HF) Ho E1 E2 E3 E4 HR HI HS. unfold fit_run. rewrite HN. rewrite HN in HN'. injection HN' as <-.
  assert (length params = length named) as HL by (symmetry; clear -HF; unfold FitFiles.fitting_parameters in HF; induction HF; cbn [length]; congruence). clear HF.
  assert (Forall (fun p => clean (bytes_of (fst p))) named) as HCl.
  { pose proof (data_names d inputs HI) as H. apply finite_names in HN. apply Forall_forall. intros p Hp.
    assert (In (fst p) (map s_name (fst (read_spreading_data d inputs)))) as Hin by (rewrite <- HN; apply in_map; exact Hp). apply in_map_iff in Hin. destruct Hin as (s & <- & Hs). exact (proj1 (Forall_forall _ _) H s Hs). }
  unfold write_fits. destruct (String.eqb_spec out "") as [|_]; [contradiction|]. cbv zeta. set (fits := FitFiles.get_fitted_data fit_text params named (Some out_lims)).
  set (shown := map (fun p => (bytes_of (fst p), show (snd p))) fits).
  assert (shown = map (fun p => (bytes_of (fit_name (fst (snd p)) (fst (fst p)) (snd (fst p))), show (power_law (snd (snd p)) (Some out_lims) (fst (fst p)) (snd (fst p))))) (combine params named)) as ES.
  { unfold shown, fits, FitFiles.get_fitted_data. rewrite map_map. apply map_ext. intros [[a k] [n s]]. reflexivity. }
  clearbody shown. subst shown. set (F := fun p : (R * R) * (string * SpreadingView.curve) => _). set (shown := map F (combine params named)).
  assert (forall i n s a k, nth_error named i = Some (n, s) -> nth_error params i = Some (a, k) -> nth_error shown i = Some (bytes_of (fit_name n a k), show (power_law s (Some out_lims) a k))) as HSh.
  { intros i n s a k H1 H2. unfold shown. rewrite nth_error_map. assert (nth_error (combine params named) i = Some ((a, k), (n, s))) as ->; [|reflexivity].
    clear -H1 H2. revert params i H1 H2. induction named as [|x named IH]; intros [|y params] [|i] H1 H2; try discriminate; cbn [combine nth_error] in *; [congruence|]. apply IH; assumption. }
  assert (length shown = length named) as LS by (unfold shown; rewrite map_length, combine_length; lia).
  assert (forall i, (i < length named)%nat -> exists n s a k, nth_error named i = Some (n, s) /\ nth_error params i = Some (a, k)) as HE.
  { intros i Hi. destruct (nth_error named i) as [[n s]|] eqn:A; [|apply nth_error_None in A; lia]. destruct (nth_error params i) as [[a k]|] eqn:B; [|apply nth_error_None in B; lia]. exists n, s, a, k. auto. }
  assert (forall n, In n (map fst shown) -> clean n) as Hcl.
  { intros x Hin. apply in_map_iff in Hin. destruct Hin as (p & <- & Hp). apply In_nth_error in Hp. destruct Hp as (i & Hp). destruct (HE i) as (n & s & a & k & H1 & H2); [rewrite <- LS; apply nth_error_Some; rewrite Hp; discriminate|].
    rewrite (HSh _ _ _ _ _ H1 H2) in Hp. injection Hp as <-. cbn [fst]. apply fit_name_clean. apply (proj1 (Forall_forall _ _) HCl (n, s)). apply (nth_error_In _ _ H1). }
  set (hdr := fit_header e (repr (fst lims), repr (snd lims)) (repr (fst out_lims), repr (snd out_lims)) (map fst shown)).
  destruct (C75_fit_header e (repr (fst lims)) (repr (snd lims)) (repr (fst out_lims)) (repr (snd out_lims)) (map fst shown) E1 E2 E3 E4 (HR _) (HR _) (HR _) (HR _)) as [HH1 HH2]; [apply Forall_forall; exact Hcl|]. fold hdr in HH1, HH2.
  destruct (do_call_spec d (os_path out) [string_of (combined_text hdr shown)] Hw) as (d' & E & W & P & L & O). cbn [String.concat] in P, L. rewrite E. destruct (fit_figure lib named (Some out_lims) params kw) as [f x] eqn:EF.
  exists d', (combined_text hdr shown), f, x. split; [reflexivity|]. split; [reflexivity|]. split; [exact W|]. split; [intros q Hq Nq; apply O; assumption|]. split; [exact L|]. split; [exact P|]. split; [|split].
  - intros i n s a k H1 H2. pose proof (HSh _ _ _ _ _ H1 H2) as Hn. apply nth_error_In in Hn. apply (in_map fst) in Hn. cbn [fst] in Hn.
    assert (In (txt "#   " ++ quoted (bytes_of (fit_name n a k))) (hdr ++ comment_lines (map fst shown))) as Hi.
    { apply in_or_app. left. unfold hdr, fit_header. apply in_or_app. right. apply in_or_app. left. apply (in_map (fun x => txt "#   " ++ quoted x)). exact Hn. }
    assert (quoted (bytes_of (fit_name n a k)) = txt "'" ++ bytes_of n ++ txt " " ++ bytes_of (parameters a k) ++ txt "'") as EQ by (unfold quoted, fit_name; rewrite !bytes_app, <- !app_assoc; reflexivity). rewrite EQ in Hi.
    destruct (flat_in (fun l => l ++ nl) _ _ Hi) as (b & a' & EB). exists b, (a' ++ graphs_text 0 (map snd shown)). unfold combined_text. rewrite EB. rewrite <- !app_assoc. reflexivity.
  - exists (flat_map (fun l => l ++ nl) (firstn 7 hdr)), (flat_map (fun l => l ++ nl) (skipn 9 hdr ++ comment_lines (map fst shown)) ++ graphs_text 0 (map snd shown)). unfold combined_text.
    assert (hdr = firstn 7 hdr ++ (txt "#   Fit limits: " ++ repr (fst lims) ++ txt ", " ++ repr (snd lims)) :: (txt "#   Draw limits: " ++ repr (fst out_lims) ++ txt ", " ++ repr (snd out_lims)) :: skipn 9 hdr) as EH by reflexivity.
    rewrite EH at 1. rewrite !flat_map_app. cbn [flat_map]. rewrite <- !app_assoc. reflexivity.
  - destruct (C75_read_back out hdr shown (map seen (seq 0 (length named))) HH1 HH2) as (series & RD & LSe & HP).
    + intros n Hin. exact (proj2 (Hcl n Hin)).
    + assert (forall j l m, length l = m -> (forall i y, nth_error l i = Some y -> shows_points (snd y) (seen (j + i)%nat)) -> Forall2 (fun (s : bytes * bytes) pts => shows_points (snd s) pts) l (map seen (seq j m))) as G.
      { clear. intros j l. revert j. induction l as [|y l IH]; intros j m <- H; cbn [length seq map]; constructor; [rewrite <- (Nat.add_0_r j); apply H; reflexivity|]. apply IH; [reflexivity|]. intros i z Hz. replace (S j + i)%nat with (j + S i)%nat by lia. apply (H (S i)). exact Hz. }
      apply (G 0%nat); [exact LS|]. intros i y Hy. destruct (HE i) as (n & s & a & k & H1 & H2); [rewrite <- LS; apply nth_error_Some; rewrite Hy; discriminate|]. rewrite (HSh _ _ _ _ _ H1 H2) in Hy. injection Hy as <-. cbn [snd]. apply (HS i n s a k); assumption.
    + exists series. split.
      * cbn [read_spreading_data]. unfold Average.content. rewrite L. cbn [option_map]. rewrite bytes_string, RD. rewrite app_nil_r. reflexivity.
      * rewrite map_length, seq_length in LSe. split; [exact LSe|]. intros i Hi. destruct (HP i (seen i)) as (s & Hs & _ & Hp).
        { rewrite nth_error_map. assert (nth_error (seq 0 (length named)) i = Some i) as ->; [|reflexivity]. rewrite (nth_error_nth' _ 0%nat) by (rewrite seq_length; exact Hi). rewrite seq_nth by exact Hi. reflexivity. }
        exists s. auto.
Qed.
Print Assumptions C94_saved.
(** Without a path nothing is written. *)
Theorem C94_nothing_saved : forall lib d inputs lims out_lims e repr show params kw named, rmapM finite_series (fst (read_spreading_data d inputs)) = Ok named ->
  exists f x, fit_figure lib named out_lims params kw = (f, x) /\ fit_run lib d inputs lims out_lims None e repr show params kw = (d, f, match x with Some x => Err x | None => Ok params end).
Proof.
  intros lib d inputs lims out_lims e repr show params kw named H. unfold fit_run. rewrite H. destruct (fit_figure lib named out_lims params kw) as [f x]. exists f, x. split; reflexivity.
Qed.
Print Assumptions C94_nothing_saved.
(** Limits which are no pair, like None (the default is a pair of two None): saving raises TypeError and leaves an empty file; a file that was there is kept. *)
Theorem C94_no_pair : forall lib d inputs lims out_lims out e repr show params kw named, wf d -> rmapM finite_series (fst (read_spreading_data d inputs)) = Ok named ->
  lims = None \/ out_lims = None -> out <> "" ->
  exists d', fit_run lib d inputs lims out_lims (Some out) e repr show params kw = (d', None, Err TypeErr) /\ lookup (files d') (os_path out) = Some "" /\ Permutation (contents d') (contents d ++ [""]) /\
    forall q, exists_path d q = true -> q <> os_path out -> lookup (files d') q = lookup (files d) q.
Proof.
  intros lib d inputs lims out_lims out e repr show params kw named Hw HN HL Ho. unfold fit_run. rewrite HN. unfold write_fits. destruct (String.eqb_spec out "") as [|_]; [contradiction|]. cbv zeta.
  destruct (do_call_spec d (os_path out) [] Hw) as (d' & E & W & P & L & O). exists d'. destruct lims as [l|]; [destruct out_lims as [o|]; [destruct HL; discriminate|]|]; rewrite E; (split; [reflexivity|split; [exact L|split; [exact P|intros q Hq Nq; apply O; assumption]]]).
Qed.
Print Assumptions C94_no_pair.

(** ** A file of the line r = t *)
Lemma ex_params_lims : FitFiles.fit_spreading_data ex_curves ["r0.xvg"] (Some (None, None)) [(1, 1)%R].
Proof.
  exists [("r0.xvg.1", ex_series)]. split; [exact ex_finite|]. constructor; [|constructor]. cbn [fst snd]. apply (PowerFitProps.C59_recovers ex_series (Some (None, None)) 1%R 1%R); [exact Rlt_0_1| | |auto].
  - exists (1, 1)%Qc, (ZQ 10, ZQ 10). split; [left; reflexivity|]. split; [right; left; reflexivity|]. cbn [fst]. intros C. apply (f_equal this) in C. vm_compute in C. discriminate.
  - intros p Hp. assert (In p ex_series) as Hp' by exact Hp. assert (fst p = snd p /\ (0 < QR (fst p))%R) as [-> L].
    { destruct Hp' as [<- | [<- | []]]; (split; [reflexivity|]); cbn [fst]; [rewrite QR_1; exact Rlt_0_1|rewrite InterfaceAngleProps.QR_ZQ'; apply IZR_lt; lia]. }
    destruct Hp' as [E|[E|[]]]; subst p; cbn [fst snd] in *; rewrite Rpower_1 by exact L; ring.
Qed.
Lemma ex_wf : wf ex_curves.
Proof. repeat (constructor; [cbn; intuition congruence|]). constructor. Qed.
(** The limits of the fit are all of the times; the curve of the fit is read back to one decimal, and the line of its name is in the file. *)
Example C94_ex : exists d' content f series, fit_run quiet_lib ex_curves ["r0.xvg"] (Some (None, None)) (Some (None, None)) (Some "fit.xvg") (mkEnv (txt "m") (txt "d") (txt "v") (txt "c")) (fun _ => txt "None")
    (fun _ => decimal_lines 1 1 ex_series) [(1, 1)%R] [] = (d', Some f, Ok [(1, 1)%R]) /\
  lookup (files d') (os_path "fit.xvg") = Some (string_of content) /\ (exists before after, content = before ++ (txt "#   'r0.xvg.1 a=1.000, k=1.000'" ++ nl) ++ after) /\
  read_spreading_data d' ["fit.xvg"] = ([series], []) /\ length (s_points series) = 2%nat.
Proof.
  destruct (C75_decimals 1 1 ex_series ltac:(lia) ltac:(lia) ltac:(discriminate)) as (shown & HS & HN).
  destruct (C94_saved quiet_lib ex_curves ["r0.xvg"] (None, None) (None, None) "fit.xvg" (mkEnv (txt "m") (txt "d") (txt "v") (txt "c")) (fun _ => txt "None") (fun _ => decimal_lines 1 1 ex_series) (fun _ => shown) _ _ [] ex_wf ex_finite ex_params_lims)
    as (d' & content & f & x & E & EF & _ & _ & L & _ & HL & _ & series & RD & LS & HP); [discriminate|split; [lit|flit]|split; [lit|flit]|split; [lit|flit]|split; [lit|flit]|intros ?; split; [lit|flit]|intros g [<- | []]; split; [lit|flit]|intros; exact HS|].
  destruct (C90_fit quiet_lib [("r0.xvg.1", ex_series)] (Some (None, None)) [(1, 1)%R] [] eq_refl ltac:(apply ex_shown; intros []) ltac:(intros [])) as (curves & f' & x' & E' & [O1 O2 O3 O4] & _).
  rewrite E' in EF. injection EF as <- <-. specialize (O3 ltac:(intros ? ?; reflexivity)). subst x'. destruct series as [|s [|? ?]]; try discriminate LS. exists d', content, f', s. split; [exact E|]. split; [exact L|].
  destruct (HL 0%nat _ _ _ _ eq_refl eq_refl) as (b & a & Hc). assert (parameters 1 1 = "a=1.000, k=1.000") as EP by (unfold parameters; rewrite ex_one; reflexivity).
  rewrite EP in Hc. split; [exists b, a; exact Hc|]. split; [exact RD|]. destruct (HP 0%nat ltac:(cbn; lia)) as (s' & Hs & Hp). cbn [nth_error] in Hs. injection Hs as <-. rewrite Hp, map_length.
  inversion HN as [|? ? ? r1 _ HN1]; subst. inversion HN1 as [|? ? ? r2 _ HN2]; subst. inversion HN2; subst. reflexivity.
Qed.
