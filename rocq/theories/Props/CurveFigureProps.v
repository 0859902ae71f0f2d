(** C90: figures with curves. *)
From Coq Require Import String Ascii Reals Permutation Lia.
From Verif.Base Require Import QcX QcR Res Np Bytes.
From Verif.Model Require Import Click Figure CurveFigures.
From Verif.Model Require Utils Cli ViewRuns Text Formats RealText SpreadingView SpreadingFiles FitFiles PowerFit InterfaceAngle SampleFiles InterfaceView InterfaceViewFiles InterfaceFiles.
From Verif.Spec Require FilesSpec AverageSpec.
From Verif.Proofs Require Import CliTextP.
From Verif.Proofs Require TextP TableP RealTextP.
From Verif.Props Require Import FigureProps ViewRunProps.
From Verif.Props Require PowerFitProps SpreadingRunProps CliNamesProps InterfaceAngleProps InterfaceViewRunProps AngleRunProps InterfaceRunProps.
Import Cli(truthy).
Import Utils(disk, fopts).
Local Open Scope string_scope.
Local Open Scope list_scope.
Local Notation length := List.length.

(** ** A figure *)
(** Everything that the options ask for, and nothing else, in the order of C84; first the function which draws, with the other keywords. *)
Record complete (kw : kwargs) (calls : list call) : Prop := {
  c_order : ascending (map rank calls);
  c_draws : exists kw' later, calls = Draw kw' :: later /\ asked kw (Draw kw');
  c_calls : forall c, (forall kw', c <> Draw kw') -> (In c calls <-> asked kw c) }.
(** A figure with these curves, and the exception: without one it is complete; if the library never fails there is none; otherwise the last call is the one which failed. *)
Record outcome (lib : library) (kw : kwargs) (curves : list plotted) (f : figure) (x : option exn) : Prop := {
  o_curves : fst f = Some curves;
  o_complete : x = None -> complete kw (snd f);
  o_ok : lib_ok lib curves -> x = None;
  o_failed : forall e, x = Some e -> exists before c, snd f = before ++ [c] /\ lib curves before c = Some e }.
Lemma complete_ok kw : complete kw (figure_calls kw).
Proof.
  split; [apply C84_order| |apply C84_calls]. destruct (C84_keywords kw) as (kw' & later & E & H1 & H2). exists kw', later. split; [exact E|]. split; assumption.
Qed.
Lemma outcome_ok lib kw curves : outcome lib kw curves (Some curves, fst (graph (lib curves) kw)) (snd (graph (lib curves) kw)).
Proof.
  destruct (C84_failures (lib curves) kw) as (made & left & E & E1 & E2). split; cbn [fst snd].
  - reflexivity.
  - intros H. rewrite H in E2. destruct E2 as [-> _]. rewrite E1. rewrite app_nil_r in E. rewrite <- E. apply complete_ok.
  - intros H. rewrite (graph_ok lib curves kw H). reflexivity.
  - intros e H. rewrite H in E2. destruct E2 as (a & c & -> & L & _). exists a, c. split; [exact E1|exact L].
Qed.
Lemma rest_label kw : Click.has "label" (rest keys kw) = Click.has "label" kw.
Proof. rewrite rest_has. reflexivity. Qed.
Lemma figure_outcome lib kw curves : existsb labelled curves = false \/ ~ In "label" (map fst kw) ->
  outcome lib kw curves (fst (curves_figure lib kw curves)) (snd (curves_figure lib kw curves)).
Proof.
  intros H. unfold curves_figure, ViewRuns.decorated. rewrite pop_spec. cbn [snd]. unfold plots. rewrite rest_label.
  assert ((existsb labelled curves && Click.has "label" kw)%bool = false) as ->.
  { destruct H as [-> | H]; [reflexivity|]. destruct (Click.has "label" kw) eqn:E; [apply FigureProps.has_in in E; contradiction|apply Bool.andb_false_r]. }
  pose proof (outcome_ok lib kw curves) as O. destruct (graph (lib curves) kw) as [calls x]. exact O.
Qed.

(** ** Which options a figure has *)
(** The keywords with one of them set to a value. *)
Definition changed (k : string) (v : val) (kw kw' : kwargs) : Prop :=
  In k (map fst kw') /\ get k kw' = v /\ forall j, j <> k -> (In j (map fst kw') <-> In j (map fst kw)) /\ get j kw' = get j kw.
(** The keywords with defaults for some of them. *)
Definition defaults (l : list (string * val)) (kw kw' : kwargs) : Prop :=
  (forall k, In k (map fst kw') <-> In k (map fst kw) \/ In k (map fst l)) /\
  (forall k, In k (map fst kw) -> get k kw' = get k kw) /\
  (forall k v, In (k, v) l -> ~ In k (map fst kw) -> get k kw' = v).
Lemma set_keys k v j kw : In j (map fst (set k v kw)) <-> In j (map fst kw) \/ j = k.
Proof. apply CliNamesProps.keys_set. Qed.
Lemma changed_set k v kw : changed k v kw (set k v kw).
Proof.
  split; [apply set_keys; right; reflexivity|]. split; [apply get_set_same|]. intros j H. split; [rewrite set_keys; intuition|apply get_set; exact H].
Qed.
Lemma default_get k v kw : (In k (map fst kw) -> ViewRuns.set_default k v kw = kw) /\ (~ In k (map fst kw) -> ViewRuns.set_default k v kw = set k v kw).
Proof.
  unfold ViewRuns.set_default. destruct (Click.has k kw) eqn:E; [apply FigureProps.has_in in E|]; split; intros H; try reflexivity; try contradiction.
  apply FigureProps.has_in in H. congruence.
Qed.
Lemma defaults_one k v kw : defaults [(k, v)] kw (ViewRuns.set_default k v kw).
Proof.
  destruct (default_get k v kw) as [H1 H2]. destruct (in_dec string_dec k (map fst kw)) as [I|N].
  - rewrite H1 by exact I. split; [intros j; cbn [map fst In]; split; [auto|intros [H|[<- |[]]]; assumption]|]. split; [reflexivity|]. intros j w [E|[]] HN. injection E as <- <-. contradiction.
  - rewrite H2 by exact N. split; [intros j; rewrite set_keys; cbn [map fst In]; intuition|]. split; [intros j Hj; apply get_set; intros ->; contradiction|]. intros j w [E|[]] _. injection E as <- <-. apply get_set_same.
Qed.
Lemma defaults_two k v j w kw : k <> j -> defaults [(k, v); (j, w)] kw (ViewRuns.set_default j w (ViewRuns.set_default k v kw)).
Proof.
  intros NE. destruct (defaults_one k v kw) as (A1 & A2 & A3). set (kw1 := ViewRuns.set_default k v kw) in *. destruct (defaults_one j w kw1) as (B1 & B2 & B3). split; [|split].
  - intros i. rewrite B1, A1. cbn [map fst In]. intuition.
  - intros i Hi. rewrite B2; [apply A2; exact Hi|]. apply A1. left. exact Hi.
  - intros i u Hin HN. destruct Hin as [E|[E|[]]]; injection E as <- <-.
    + rewrite B2; [apply (A3 k v); [left; reflexivity|exact HN]|]. apply A1. right. left. reflexivity.
    + apply (B3 j w); [left; reflexivity|]. rewrite A1. cbn [map fst In]. intros [C|[C|[]]]; [contradiction|congruence].
Qed.
(** The figure is to be saved, or to be shown. *)
Definition saves (kw : kwargs) : Prop := exists p, setting kw "save_fig" p /\ p <> VNone.
Definition shows (kw : kwargs) : Prop := on kw "show".
Lemma get_or_setting k v kw w : In (k, v) options -> (get_or k v kw = w <-> setting kw k w).
Proof. intros H. rewrite <- (get_popped k v kw H). rewrite <- (setting_iff kw k w) by (exists v; exact H). intuition. Qed.
Lemma shown_iff kw : shown kw = true <-> shows kw.
Proof.
  unfold shown, shows, on. split.
  - intros H. eexists. split; [apply (get_or_setting "show" (VBool true)); [cbn; tauto|reflexivity]|exact H].
  - intros (v & Hv & T). apply (get_or_setting "show" (VBool true)) in Hv; [|cbn; tauto]. rewrite Hv. exact T.
Qed.
Lemma saved_iff kw : negb (is_none (get_or "save_fig" VNone kw)) = true <-> saves kw.
Proof.
  rewrite not_none. unfold saves. split.
  - intros H. eexists. split; [apply (get_or_setting "save_fig" VNone); [cbn; tauto|reflexivity]|exact H].
  - intros (v & Hv & T). apply (get_or_setting "save_fig" VNone) in Hv; [|cbn; tauto]. rewrite Hv. exact T.
Qed.

(** ** Spreading curves *)
Definition points (c : SpreadingView.curve) : list (R * option R) := map (fun p => (QR (fst p), Some (QR (snd p)))) c.
(** One figure with a curve for every series that was read, after scaling and synchronising, if it is shown, or if it is saved and there is any; its exception is raised. *)
Theorem C90_spreading : forall lib d inputs sync tau R save e text kw data warned named curves,
  SpreadingFiles.read_spreading_data d inputs = (data, warned) -> rmapM SpreadingFiles.finite_series data = Ok named ->
  SpreadingView.combine_spreading_data (map snd named) sync tau R = Ok curves ->
  exists d', SpreadingFiles.view_spreading d inputs sync tau R (Some save) e text = Ok (d', warned) /\
    (shows kw \/ (saves kw /\ data <> []) -> exists f x kw', changed "axis" (VText "tight") kw kw' /\
       view_spreading lib d inputs sync tau R (Some save) e text kw = (d', Some f, x) /\ outcome lib kw' (map (fun c => (None, points c)) curves) f x) /\
    (~ (shows kw \/ (saves kw /\ data <> [])) -> view_spreading lib d inputs sync tau R (Some save) e text kw = (d', None, None)).
Proof.
  intros lib d inputs sync tau R save e text kw data warned named curves HD HN HC.
  assert (exists comb, SpreadingFiles.combine_named named sync tau R = Ok comb /\ map snd comb = curves) as (comb & HCo & EC).
  { unfold SpreadingFiles.combine_named. rewrite HC. eexists. split; [reflexivity|]. generalize 0%nat. intros s. generalize (map fst named). intros ns. revert s. induction curves as [|c curves IH] using rev_ind; intros s; [reflexivity|].
    clear IH. generalize (curves ++ [c]). clear. intros l. revert s. induction l as [|c l IH]; intros s; [reflexivity|]. cbn [length seq map combine snd]. f_equal. apply IH. }
  assert (exists d', SpreadingFiles.view_spreading d inputs sync tau R (Some save) e text = Ok (d', warned)) as (d' & E).
  { unfold SpreadingFiles.view_spreading. rewrite HD, HN. cbn [rbind]. rewrite HCo. cbn [rbind]. destruct save as [out|]; [|eexists; reflexivity]. destruct (String.eqb out ""); [eexists; reflexivity|].
    match goal with |- context [Utils.do_call ?a ?b] => destruct (Utils.do_call a b) as [d1|] end; eexists; reflexivity. }
  exists d'. split; [exact E|]. unfold view_spreading. rewrite E, HD, HN. cbn [rbind]. rewrite HCo.
  assert ((shown kw || (negb (is_none (get_or "save_fig" VNone kw)) && negb (Nat.eqb (length data) 0)))%bool = true <-> shows kw \/ (saves kw /\ data <> [])) as HS.
  { rewrite Bool.orb_true_iff, Bool.andb_true_iff, shown_iff, saved_iff. assert (negb (Nat.eqb (length data) 0) = true <-> data <> []) as ->; [|reflexivity]. destruct data; cbn; intuition discriminate. }
  split.
  - intros H. apply HS in H. rewrite H. set (kw' := set "axis" (VText "tight") kw).
    pose proof (figure_outcome lib kw' (map (fun p => spread_curve (snd p)) comb)) as O. destruct (curves_figure lib kw' (map (fun p => spread_curve (snd p)) comb)) as [f x].
    exists f, x, kw'. split; [apply changed_set|]. split; [reflexivity|]. assert (map (fun c => (None, points c)) curves = map (fun p => spread_curve (snd p)) comb) as -> by (rewrite <- EC, map_map; reflexivity).
    apply O. left. clear. induction comb; [reflexivity|exact IHcomb].
  - intros H. destruct (_ || _)%bool eqn:B; [|reflexivity]. destruct H. apply HS. reflexivity.
Qed.
Print Assumptions C90_spreading.
(** Refuted: the option 'axis' has no effect. *)
Theorem C90_axis_refuted : forall lib kw kw' curves f x v, changed "axis" (VText "tight") kw kw' -> outcome lib kw' curves f x -> x = None -> In (Axis v) (snd f) -> v = VText "tight".
Proof.
  intros lib kw kw' curves f x v (HI & HG & _) O E H. destruct (o_complete _ _ _ _ _ O E) as [_ _ HC]. apply HC in H; [|discriminate]. destruct H as [[[_ H]|[H _]] _]; [congruence|contradiction].
Qed.
Print Assumptions C90_axis_refuted.

(** ** Fits *)
Definition letters (s : string) : list ascii := list_ascii_of_string s.
Lemma letters_app s t : letters (s ++ t)%string = letters s ++ letters t.
Proof. unfold letters. induction s as [|c s IH]; [reflexivity|]. cbn. f_equal. exact IH. Qed.
Lemma mem_iff c s : mem c s = true <-> In c (letters s).
Proof.
  unfold letters. induction s as [|d s IH]; cbn [mem list_ascii_of_string In]; [intuition discriminate|]. rewrite Bool.orb_true_iff, IH, Ascii.eqb_eq. intuition.
Qed.
Lemma mem_false c s : mem c s = false <-> ~ In c (letters s).
Proof. rewrite <- mem_iff. destruct (mem c s); intuition discriminate. Qed.
Lemma lstrip_all drop s t : (forall c, In c (letters s) -> drop c = true) -> lstrip_by drop (s ++ t)%string = lstrip_by drop t.
Proof.
  unfold letters. induction s as [|c s IH]; intros H; [reflexivity|]. cbn [append lstrip_by]. rewrite H by (left; reflexivity). apply IH. intros d Hd. apply H. right. exact Hd.
Qed.
Lemma lstrip_length drop s : (String.length (lstrip_by drop s) <= String.length s)%nat.
Proof. induction s as [|c s IH]; [reflexivity|]. cbn [lstrip_by]. destruct (drop c); cbn [String.length]; lia. Qed.
Lemma rstrip_keep drop s c : drop c = false -> rstrip_by drop (s ++ String c "")%string = (s ++ String c "")%string.
Proof.
  intros H. induction s as [|d s IH]; cbn [append rstrip_by]; [rewrite H; reflexivity|]. rewrite IH. destruct s; reflexivity.
Qed.
Lemma rstrip_drop drop s c : drop c = true -> rstrip_by drop (s ++ String c "")%string = rstrip_by drop s.
Proof. intros H. induction s as [|d s IH]; cbn [append rstrip_by]; [rewrite H; reflexivity|]. rewrite IH. reflexivity. Qed.
Lemma rstrip_length drop s : (String.length (rstrip_by drop s) <= String.length s)%nat.
Proof. induction s as [|c s IH]; [reflexivity|]. cbn [rstrip_by]. destruct (rstrip_by drop s); [destruct (drop c); cbn [String.length]; lia|cbn [String.length] in *; lia]. Qed.
Lemma strip_length drop s : (String.length (strip_by drop s) <= String.length s)%nat.
Proof. unfold strip_by. pose proof (rstrip_length drop (lstrip_by drop s)). pose proof (lstrip_length drop s). lia. Qed.
Lemma lstrip_last drop c : drop c = true -> forall s, exists t, lstrip_by drop (s ++ String c "")%string = (t ++ String c "")%string /\ (String.length t <= String.length s)%nat \/ lstrip_by drop (s ++ String c "")%string = "".
Proof.
  intros H. induction s as [|d s (t & IH)]; [exists ""; right; cbn [append lstrip_by]; rewrite H; reflexivity|]. cbn [append lstrip_by]. destruct (drop d); [|exists (String d s); left; split; reflexivity].
  exists t. destruct IH as [[IH L]|IH]; [left; split; [exact IH|cbn [String.length]; lia]|right; exact IH].
Qed.
Lemma strip_last drop s c : drop c = true -> (String.length (strip_by drop (s ++ String c "")%string) <= String.length s)%nat.
Proof.
  intros H. unfold strip_by. destruct (lstrip_last drop c H s) as (t & [[E L]|E]); rewrite E; [|cbn; lia]. rewrite rstrip_drop by exact H. pose proof (rstrip_length drop t). lia.
Qed.
Lemma app_len s t : String.length (s ++ t)%string = (String.length s + String.length t)%nat.
Proof. induction s as [|c s IH]; [reflexivity|]. cbn [append String.length]. rewrite IH. reflexivity. Qed.
Lemma app_assoc_s (a b c : string) : ((a ++ b) ++ c = a ++ b ++ c)%string.
Proof. induction a as [|x a IH]; [reflexivity|]. cbn [append]. rewrite IH. reflexivity. Qed.
Lemma lstrip_keep drop c s : drop c = false -> lstrip_by drop (String c s) = String c s.
Proof. intros H. cbn [lstrip_by]. rewrite H. reflexivity. Qed.
(** A label of a fit "a=..., k=..." is what is left of the name of the fit if, and only if, the last character [c] is not in the name of the series, and the name has no blank or no 'a'. *)
Lemma label_exact name t c : white c = false ->
  let text := ("a=" ++ t ++ String c "")%string in
  fit_label (name ++ " " ++ text)%string name = text <-> ~ In c (letters name) /\ ~ (In " "%char (letters name) /\ In "a"%char (letters name)).
Proof.
  intros Hw text. unfold fit_label. set (drop := fun c => mem c name).
  assert (lstrip_by drop (name ++ " " ++ text)%string = lstrip_by drop (" " ++ text)%string) as E1 by (apply lstrip_all; intros d Hd; apply mem_iff; exact Hd).
  assert (text = ("a=" ++ t) ++ String c "")%string as ET by (unfold text; rewrite !app_assoc_s; reflexivity).
  assert (String.length text = S (String.length ("a=" ++ t))) as LT by (rewrite ET, app_len; cbn [String.length]; lia).
  assert (strip_by white (" " ++ text)%string = text) as W1.
  { unfold strip_by. change (" " ++ text)%string with (String " " text). cbn [lstrip_by]. change (white " ") with true. cbv iota. unfold text at 1. change ("a=" ++ t ++ String c "")%string with (String "a" ("=" ++ t ++ String c ""))%string. rewrite lstrip_keep by reflexivity.
    change (String "a" ("=" ++ t ++ String c ""))%string with text. rewrite ET. apply rstrip_keep. exact Hw. }
  assert (strip_by white text = text) as W2.
  { unfold strip_by. unfold text at 1. change ("a=" ++ t ++ String c "")%string with (String "a" ("=" ++ t ++ String c ""))%string. rewrite lstrip_keep by reflexivity.
    change (String "a" ("=" ++ t ++ String c ""))%string with text. rewrite ET. apply rstrip_keep. exact Hw. }
  split.
  - intros H. assert (drop c = false) as HC.
    { destruct (drop c) eqn:D; [|reflexivity]. exfalso. assert (String.length text <= String.length (strip_by white (strip_by drop (name ++ " " ++ text)%string)))%nat as L by (rewrite H; lia).
      revert L. unfold strip_by at 2. rewrite E1. change (" " ++ text)%string with (String " " text). cbn [lstrip_by]. destruct (drop " "%char) eqn:DB.
      - fold (strip_by drop text). pose proof (strip_length white (strip_by drop text)) as L1. pose proof (strip_last drop ("a=" ++ t) c D) as L2. rewrite <- ET in L2. lia.
      - rewrite LT. rewrite ET. change (String " " (("a=" ++ t) ++ String c ""))%string with ((String " " ("a=" ++ t)) ++ String c "")%string. rewrite rstrip_drop by exact D. cbn [rstrip_by]. destruct (rstrip_by drop ("a=" ++ t)%string) as [|y u] eqn:RU.
        + rewrite DB. change (strip_by white " ") with "". cbn [String.length]. lia.
        + assert (String.length (String y u) <= String.length ("a=" ++ t))%nat as LU by (rewrite <- RU; apply rstrip_length). unfold strip_by. cbn [lstrip_by]. change (white " ") with true. cbv iota.
          pose proof (strip_length white (String y u)) as LS. unfold strip_by in LS. cbn [lstrip_by] in LS. intros L. lia. }
    split; [apply mem_false; exact HC|]. intros [HB HA]. apply mem_iff in HB. apply mem_iff in HA.
    assert (String.length text <= String.length (strip_by white (strip_by drop (name ++ " " ++ text)%string)))%nat as L by (rewrite H; lia). revert L. unfold strip_by at 2. rewrite E1.
    change (" " ++ text)%string with (String " " text). cbn [lstrip_by]. unfold drop at 2. rewrite HB. unfold text at 1 2. change ("a=" ++ t ++ String c "")%string with (String "a" ("=" ++ t ++ String c ""))%string. cbn [lstrip_by]. unfold drop at 2. rewrite HA.
    fold (strip_by drop ("=" ++ t ++ String c "")%string). pose proof (strip_length white (strip_by drop ("=" ++ t ++ String c "")%string)). pose proof (strip_length drop ("=" ++ t ++ String c "")%string). cbn [String.length] in *. lia.
  - intros [HC HBA]. apply mem_false in HC. assert (strip_by drop (name ++ " " ++ text)%string = " " ++ text \/ strip_by drop (name ++ " " ++ text)%string = text)%string as [-> | ->]; [|exact W1|exact W2].
    unfold strip_by. rewrite E1. change (" " ++ text)%string with (String " " text). cbn [lstrip_by]. destruct (drop " "%char) eqn:DB.
    + right. assert (drop "a"%char = false) as DA by (apply mem_false; intros C; apply HBA; split; [apply mem_iff; exact DB|exact C]).
      unfold text at 1. change ("a=" ++ t ++ String c "")%string with (String "a" ("=" ++ t ++ String c ""))%string. rewrite lstrip_keep by exact DA. change (String "a" ("=" ++ t ++ String c ""))%string with text. rewrite ET. apply rstrip_keep. exact HC.
    + left. rewrite ET. change (String " " (("a=" ++ t) ++ String c ""))%string with ((String " " ("a=" ++ t)) ++ String c "")%string. apply rstrip_keep. exact HC.
Qed.
(** The text '%.3f' of a number, and that of the parameters. *)
Definition decimals (x : R) : string := Formats.string_of (RealText.fmt_fixedR 3 x).
Definition parameters (a k : R) : string := ("a=" ++ decimals a ++ ", k=" ++ decimals k)%string.
Definition last_letter (s : string) (c : ascii) : Prop := exists t, s = (t ++ String c "")%string.
Lemma decimals_last x : exists c, last_letter (decimals x) c /\ white c = false.
Proof.
  unfold decimals. destruct (RealTextP.fmt_fixedR_as 3 x ltac:(lia)) as (q & -> & _). destruct (TableP.fmt_fixed_plain 3 q ltac:(lia)) as [HP HN].
  destruct (exists_last HN) as (l & c & E). rewrite E in *. apply Forall_app in HP as [_ HP]. pose proof (Forall_inv HP) as Hc. exists c. split.
  - exists (Formats.string_of l). clear. unfold Formats.string_of. induction l as [|d l IH]; [reflexivity|]. cbn. f_equal. exact IH.
  - clear -Hc. unfold TextP.plain, Text.is_space, code in Hc. unfold white. destruct c as [[] [] [] [] [] [] [] []]; vm_compute in Hc |- *; congruence.
Qed.
(** The label of a fit shows its parameters if and only if the last digit is not in the name of the series, and the name does not have both a blank and an 'a'. *)
Theorem C90_fit_label : forall name a k, exists c, last_letter (decimals k) c /\
  (fit_label (name ++ fit_text (a, k))%string name = parameters a k <-> ~ In c (letters name) /\ ~ (In " "%char (letters name) /\ In "a"%char (letters name))).
Proof.
  intros name a k. destruct (decimals_last k) as (c & (t & E) & W). exists c. split; [exists t; exact E|].
  pose proof (label_exact name (decimals a ++ ", k=" ++ t) c W) as H. cbv zeta in H.
  assert ("a=" ++ (decimals a ++ ", k=" ++ t) ++ String c "" = parameters a k)%string as EP by (unfold parameters; rewrite E, !app_assoc_s; reflexivity).
  rewrite EP in H. assert (name ++ " " ++ parameters a k = name ++ fit_text (a, k))%string as EF by reflexivity. rewrite EF in H. exact H.
Qed.
Print Assumptions C90_fit_label.

(** One figure with two curves for every series, in order: its points with its name, and the power law at its own times; its exception is raised. *)
Theorem C90_fit : forall lib named out_lims params kw, length params = length named -> shows kw -> ~ In "label" (map fst kw) ->
  exists curves f x, fit_figure lib named out_lims params kw = (Some f, x) /\ outcome lib kw curves f x /\ length curves = (2 * length named)%nat /\
    forall i n s a k, nth_error named i = Some (n, s) -> nth_error params i = Some (a, k) ->
      nth_error curves (2 * i) = Some (Some n, points s) /\
      nth_error curves (2 * i + 1) = Some (Some (fit_label (n ++ fit_text (a, k))%string n), map (fun t => (QR t, Some (a * Rpower (QR t) k)%R)) (SpreadingView.fitted_times s out_lims)).
Proof.
  intros lib named out_lims params kw HL HS HK. unfold fit_figure. apply shown_iff in HS. rewrite HS. set (curves := fit_curves _ _).
  pose proof (figure_outcome lib kw curves (or_intror HK)) as O. destruct (curves_figure lib kw curves) as [f x]. exists curves, f, x. split; [reflexivity|]. split; [exact O|]. clear O HS.
  subst curves. unfold fit_curves, FitFiles.get_fitted_data. revert named HL. induction params as [|[a k] params IH]; intros [|[n s] named] HL; try discriminate HL.
  - split; [reflexivity|]. intros [|i]; discriminate.
  - injection HL as HL. destruct (IH named HL) as [L H]. cbn [combine map flat_map fst snd app length]. split; [rewrite L; lia|].
    intros [|i] n' s' a' k' Hn Hp; cbn [nth_error] in Hn, Hp.
    + injection Hn as <- <-. injection Hp as <- <-. split; [reflexivity|]. cbn [Nat.mul Nat.add nth_error]. do 2 f_equal. unfold PowerFit.fitted_series. rewrite map_map. reflexivity.
    + destruct (H i n' s' a' k' Hn Hp) as [H1 H2]. replace (2 * S i)%nat with (S (S (2 * i))) by lia. cbn [Nat.add nth_error]. split; [exact H1|exact H2].
Qed.
Print Assumptions C90_fit.
(** Refuted: a figure of fits which is not shown is not saved. *)
Theorem C90_fit_saved_refuted : forall lib named out_lims params kw, ~ shows kw -> fit_figure lib named out_lims params kw = (None, None).
Proof.
  intros lib named out_lims params kw H. unfold fit_figure. destruct (shown kw) eqn:E; [|reflexivity]. apply shown_iff in E. contradiction.
Qed.
Print Assumptions C90_fit_saved_refuted.

(** ** Contact angles *)
(** The curves: the fitted and the mean measured angles, whichever are asked for, over time; none without files. *)
Definition angles_drawn (want : bool) (height : option Qc) (times : list Qc) (c : InterfaceAngle.found) : list plotted :=
  match times with
  | [] => []
  | _ => (if want then [(Some "fit", combine (map QR times) (InterfaceAngle.fit c))] else []) ++
         (match height with Some _ => [(Some "measured", combine (map QR times) (InterfaceAngle.measured c))] | None => [] end)
  end.
Lemma angle_lists ffuel en bt ht d base want height dt save fo d' times c : SampleFiles.angle_run ffuel en bt ht d base want height dt save fo = (d', Ok (times, c)) ->
  (want = false -> InterfaceAngle.fit c = []) /\ (height = None -> InterfaceAngle.measured c = []) /\
  (want = true -> length (InterfaceAngle.fit c) = length times) /\ (height <> None -> length (InterfaceAngle.measured c) = length times) /\
  times = map (fun i => NQ i * dt) (seq 0 (length times)).
Proof.
  intros H. assert (InterfaceAngle.interface_contact_angle ffuel d base want height dt fo = Ok (times, c)) as E.
  { unfold SampleFiles.angle_run in H. destruct (InterfaceAngle.interface_contact_angle ffuel d base want height dt fo) as [[t c']|]; [|discriminate]. destruct (SampleFiles.output_of save); [|congruence].
    match type of H with context [Utils.do_call ?a ?b] => destruct (Utils.do_call a b) end; [|discriminate]. congruence. }
  clear H. unfold InterfaceAngle.interface_contact_angle in E. destruct (Utils.find_datamap_singles _ _ _ _ _ _) as [[names w]|]; [|discriminate]. cbn [rbind] in E.
  destruct (InterfaceAngle.angle_loop _ _ _ _) as [c'|] eqn:EL; [|discriminate]. cbn [rbind] in E. injection E as <- <-. destruct (InterfaceAngleProps.C72_series _ _ _ _ EL) as (A1 & A2 & A3 & A4 & _).
  split; [exact A1|]. split; [intros H; apply A2; exact H|]. unfold InterfaceAngle.times_of. destruct height as [h|].
  - destruct (A4 ltac:(discriminate)) as (L & _). rewrite map_length, seq_length. split; [intros ->; rewrite A3, L; reflexivity|]. split; [reflexivity|reflexivity].
  - destruct want.
    + rewrite map_length, seq_length. split; [reflexivity|]. split; [intros C; contradiction|reflexivity].
    + split; [discriminate|]. split; [intros C; contradiction|reflexivity].
Qed.
(** After a run the angles are drawn if they are to be shown or saved, with a legend unless it is turned off; every curve has one point for each file, at its time. *)
Theorem C90_angle : forall lib ffuel en bt ht d base want height dt save fo kw d' times c, SampleFiles.angle_run ffuel en bt ht d base want height dt save fo = (d', Ok (times, c)) ->
  ~ In "label" (map fst kw) -> shows kw \/ (exists p, setting kw "save_fig" p /\ truthy p = true) ->
  exists f x kw', angle_figure lib ffuel en bt ht d base want height dt save fo kw = (d', Some f, match x with Some x => Err x | None => Ok (times, c) end) /\
    defaults [("axis", VText "tight"); ("legend", VBool (want || match height with Some _ => true | None => false end))] kw kw' /\
    outcome lib kw' (angles_drawn want height times c) f x /\
    (want = true -> length (InterfaceAngle.fit c) = length times) /\ (height <> None -> length (InterfaceAngle.measured c) = length times) /\
    times = map (fun i => NQ i * dt) (seq 0 (length times)).
Proof.
  intros lib ffuel en bt ht d base want height dt save fo kw d' times c H HK HS. destruct (angle_lists _ _ _ _ _ _ _ _ _ _ _ _ _ _ H) as (A1 & A2 & A3 & A4 & A5). unfold angle_figure. rewrite H.
  assert ((shown kw || truthy (get_or "save_fig" VNone kw))%bool = true) as ->.
  { apply Bool.orb_true_iff. destruct HS as [HS|(p & Hp & T)]; [left; apply shown_iff; exact HS|right]. apply (get_or_setting "save_fig" VNone) in Hp; [|cbn; tauto]. rewrite Hp. exact T. }
  set (b := VBool _). cbv zeta. set (kw' := ViewRuns.set_default "legend" b (ViewRuns.set_default "axis" (VText "tight") kw)). pose proof (defaults_two "axis" (VText "tight") "legend" b kw ltac:(discriminate)) as HD. fold kw' in HD.
  assert (angle_curves times c = angles_drawn want height times c) as EC.
  { unfold angle_curves, angles_drawn. cbn [flat_map fst snd]. rewrite app_nil_r. destruct times as [|t times].
    - assert (forall l : list (option R), length l = 0%nat -> l = []) as Z by (intros [|? ?] HL; [reflexivity|discriminate]).
      assert (InterfaceAngle.fit c = []) as -> by (destruct want; [apply Z, A3; reflexivity|apply A1; reflexivity]).
      assert (InterfaceAngle.measured c = []) as -> by (destruct height; [apply Z, A4; discriminate|apply A2; reflexivity]). reflexivity.
    - f_equal.
      + destruct want; [specialize (A3 eq_refl); destruct (InterfaceAngle.fit c); [discriminate|reflexivity]|rewrite A1 by reflexivity; reflexivity].
      + destruct height; [specialize (A4 ltac:(discriminate)); destruct (InterfaceAngle.measured c); [discriminate|reflexivity]|rewrite A2 by reflexivity; reflexivity]. }
  rewrite EC. pose proof (figure_outcome lib kw' (angles_drawn want height times c)) as O. destruct (curves_figure lib kw' (angles_drawn want height times c)) as [f x].
  exists f, x, kw'. split; [reflexivity|]. split; [exact HD|]. split; [|auto]. apply O. right. intros C. apply (proj1 HD) in C. cbn [map fst In] in C. intuition discriminate.
Qed.
Print Assumptions C90_angle.
(** Otherwise there is no figure, nor after a run which failed. *)
Theorem C90_angle_only : forall lib ffuel en bt ht d base want height dt save fo kw d' r, SampleFiles.angle_run ffuel en bt ht d base want height dt save fo = (d', r) ->
  (exists e, r = Err e) \/ (~ shows kw /\ ~ saves kw) -> angle_figure lib ffuel en bt ht d base want height dt save fo kw = (d', None, r).
Proof.
  intros lib ffuel en bt ht d base want height dt save fo kw d' r H HN. unfold angle_figure. rewrite H. destruct HN as [(e & ->)|[H1 H2]]; [reflexivity|]. destruct r as [[times c]|e]; [|reflexivity].
  assert ((shown kw || truthy (get_or "save_fig" VNone kw))%bool = false) as ->; [|reflexivity]. apply Bool.orb_false_iff. split; [destruct (shown kw) eqn:E; [apply shown_iff in E; contradiction|reflexivity]|].
  destruct (is_none (get_or "save_fig" VNone kw)) eqn:E; [destruct (get_or "save_fig" VNone kw); [reflexivity|discriminate..]|]. destruct H2. apply saved_iff. rewrite E. reflexivity.
Qed.
Print Assumptions C90_angle_only.

(** ** Samples of interfaces *)
(** After a run the samples are drawn over their times, one point for each; after a run which failed there is no figure. *)
Theorem C90_samples : forall lib ffuel en bt variable dt d base save fo kw d' rows, SampleFiles.sample_interfaces ffuel en bt variable dt d base save fo = (d', Ok rows) ->
  exists f x, sample_figure lib ffuel en bt variable dt d base save fo kw = (d', Some f, match x with Some x => Err x | None => Ok rows end) /\
    outcome lib kw [(None, map (fun r => (QR (fst r), Some (snd r))) rows)] f x.
Proof.
  intros lib ffuel en bt variable dt d base save fo kw d' rows H. unfold sample_figure. rewrite H. unfold ViewRuns.decorated. set (curves := [(None, map (fun p => (QR (fst p), Some (snd p))) rows)]).
  pose proof (outcome_ok lib kw curves) as O. destruct (graph (lib curves) kw) as [calls x]. cbv iota beta. exists (Some curves, calls), x. split; [reflexivity|exact O].
Qed.
Print Assumptions C90_samples.
Theorem C90_samples_failed : forall lib ffuel en bt variable dt d base save fo kw d' e, SampleFiles.sample_interfaces ffuel en bt variable dt d base save fo = (d', Err e) ->
  sample_figure lib ffuel en bt variable dt d base save fo kw = (d', None, Err e).
Proof. intros lib ffuel en bt variable dt d base save fo kw d' e H. unfold sample_figure. rewrite H. reflexivity. Qed.
Print Assumptions C90_samples_failed.

(** ** Interfaces *)
(** x over height for every point of an interface (a list of heights with their x). *)
Definition profile (s : InterfaceView.series) : list (R * option R) := map (fun p => (QR (snd p), Some (QR (fst p)))) s.
Definition interface_picture (lib : library) (kw : kwargs) (g : InterfaceViewFiles.figure) (f : figure) (x : option exn) : Prop :=
  exists kw', match fst g with Some n => changed "save_fig" (VText n) kw kw' | None => kw' = kw end /\ outcome lib kw' [(None, profile (snd g))] f x.
Lemma one_picture lib kw g : interface_picture lib kw g (fst (curves_figure lib (match fst g with Some n => set "save_fig" (VText n) kw | None => kw end) [interface_curve (snd g)]))
  (snd (curves_figure lib (match fst g with Some n => set "save_fig" (VText n) kw | None => kw end) [interface_curve (snd g)])).
Proof.
  eexists. split; [|apply figure_outcome; left; reflexivity]. destruct (fst g); [apply changed_set|reflexivity].
Qed.
(** The figures one after the other, until one fails. *)
Lemma draw_spec lib kw : forall gs, exists fs x, draw_figures lib kw gs = (fs, x) /\
  match x with
  | None => Forall2 (fun g f => interface_picture lib kw g f None) gs fs
  | Some e => exists done g rest fs' f, gs = done ++ g :: rest /\ fs = fs' ++ [f] /\ Forall2 (fun g f => interface_picture lib kw g f None) done fs' /\ interface_picture lib kw g f (Some e)
  end.
Proof.
  induction gs as [|[n s] gs (fs & x & E & IH)]; [exists [], None; split; [reflexivity|constructor]|]. cbn [draw_figures]. pose proof (one_picture lib kw (n, s)) as P. cbn [fst snd] in P.
  destruct (curves_figure lib _ _) as [f [e|]]; cbn [fst snd] in P.
  - exists [f], (Some e). split; [reflexivity|]. exists [], (n, s), gs, [], f. split; [reflexivity|]. split; [reflexivity|]. split; [constructor|exact P].
  - rewrite E. exists (f :: fs), x. split; [reflexivity|]. destruct x as [e|]; [|constructor; assumption]. destruct IH as (done & g & rest & fs' & f' & -> & -> & H1 & H2).
    exists ((n, s) :: done), g, rest, (f :: fs'), f'. split; [reflexivity|]. split; [reflexivity|]. split; [constructor; assumption|exact H2].
Qed.
Lemma labels_none lib kw g f x e : interface_picture lib kw g f x -> x = Some e -> ~ (forall c, lib_ok lib c).
Proof. intros (kw' & _ & O) -> H. pose proof (o_ok _ _ _ _ _ O (H _)). discriminate. Qed.
(** Every averaged interface of more than one point has its own figure, saved under the number of its group, if figures are saved; the first failure is raised. *)
Theorem C90_interfaces : forall lib ffuel d base M save_fig figext fo kw n vs, (0 < M)%nat ->
  let begin := match Utils.o_begin fo with Some b => b | None => 1%Z end in
  let e := match Utils.o_end fo with Some e => e | None => Utils.Inf end in
  let ext := match Utils.o_ext fo with Some x => x | None => ".xvg"%string end in
  (n + 1 < ffuel)%nat -> FilesSpec.run_length (fun z => match e with Utils.Upto m => (z <= m)%Z | Utils.Inf => True end /\ Utils.exists_path d (Formats.os_path (Utils.fname base z ext)) = true) begin n ->
  length vs = Nat.div n M -> (forall i v, nth_error vs i = Some v -> InterfaceViewRunProps.group_shows d (InterfaceViewRunProps.group_names base ext begin M i) v) ->
  exists K fs x kw', (forall i, AverageSpec.bundle_output begin M false i (K + Z.of_nat i)) /\ defaults [("axis", VText "scaled")] kw kw' /\
    let gs := InterfaceViewRunProps.figures save_fig figext K vs in
    match x with
    | None => interface_figures lib ffuel d base (Z.of_nat M) save_fig figext fo kw = (fs, Ok (map (map snd) (InterfaceViewRunProps.found vs), map (map fst) (InterfaceViewRunProps.found vs))) /\
        Forall2 (fun g f => interface_picture lib kw' g f None) gs fs
    | Some err => interface_figures lib ffuel d base (Z.of_nat M) save_fig figext fo kw = (fs, Err err) /\ ~ (forall c, lib_ok lib c) /\
        exists done g rest fs' f, gs = done ++ g :: rest /\ fs = fs' ++ [f] /\ Forall2 (fun g f => interface_picture lib kw' g f None) done fs' /\ interface_picture lib kw' g f (Some err)
    end.
Proof.
  intros lib ffuel d base M save_fig figext fo kw n vs HM begin e ext Hf Hr HL HS. destruct (InterfaceViewRunProps.C83_run ffuel d base M save_fig figext fo n vs HM Hf Hr HL HS) as (K & HK & E).
  unfold interface_figures. rewrite E. set (kw' := ViewRuns.set_default "axis" (VText "scaled") kw). destruct (draw_spec lib kw' (InterfaceViewRunProps.figures save_fig figext K vs)) as (fs & x & ED & H).
  rewrite ED. exists K, fs, x, kw'. split; [exact HK|]. split; [apply defaults_one|]. cbv zeta. destruct x as [err|]; [|split; [reflexivity|exact H]]. split; [reflexivity|]. split; [|exact H].
  destruct H as (done & g & rest & fs' & f & _ & _ & _ & P). exact (labels_none _ _ _ _ _ _ P eq_refl).
Qed.
Print Assumptions C90_interfaces.


(** ** Examples *)
Definition quiet_lib : library := fun _ _ _ => None.
Definition ex_curves : disk := {| Utils.files := [(Formats.os_path "r0.xvg", Formats.string_of (txt "1 1" ++ Gmx.nl ++ txt "10 10" ++ Gmx.nl))]; Utils.dirs := [] |}.
Definition ex_series : list (Qc * Qc) := [(1, 1); (ZQ 10, ZQ 10)]%Qc.
Definition ex_data : SpreadingFiles.series := SpreadingFiles.mkSeries "r0.xvg.1" (map (fun p => (Fin (fst p), Fin (snd p))) ex_series).
Lemma ex_read : exists s, SpreadingFiles.read_spreading_data ex_curves ["r0.xvg"] = ([s], []) /\ SpreadingFiles.s_name s = "r0.xvg.1" /\ SpreadingFiles.s_points s = map (fun p => (Fin (fst p), Fin (snd p))) ex_series.
Proof.
  eexists. split; [vm_compute; reflexivity|]. split; [reflexivity|]. unfold ex_series. cbn [SpreadingFiles.s_points map fst snd].
  repeat match goal with |- _ :: _ = _ :: _ => f_equal end; try reflexivity; f_equal; f_equal; apply Qc_is_canon; reflexivity.
Qed.
Lemma ex_finite : rmapM SpreadingFiles.finite_series (fst (SpreadingFiles.read_spreading_data ex_curves ["r0.xvg"])) = Ok [("r0.xvg.1", ex_series)].
Proof.
  destruct ex_read as (s & -> & N & P). cbn [fst rmapM]. unfold SpreadingFiles.finite_series. rewrite N, P. reflexivity.
Qed.
Lemma ex_shown kw : ~ In "show" (map fst kw) -> shows kw.
Proof. intros H. exists (VBool true). split; [right; split; [exact H|cbn; tauto]|reflexivity]. Qed.
(** One curve, its times divided by ten, with tight axes. *)
Definition ex_scaled : list (Qc * Qc) := [(Q2Qc (1 # 10), 1); (1, ZQ 10)]%Qc.
Lemma ex_combined : SpreadingView.combine_spreading_data [ex_series] None [ZQ 10] [1%Qc] = Ok [ex_scaled].
Proof.
  assert (match SpreadingView.combine_spreading_data [ex_series] None [ZQ 10] [1%Qc] with Ok [[(a, b); (c, d)]] => qeq a (Q2Qc (1 # 10)) && qeq b 1 && qeq c 1 && qeq d (ZQ 10) | _ => false end = true)%bool as V by (vm_compute; reflexivity).
  destruct (SpreadingView.combine_spreading_data _ _ _ _) as [[|[|[a b] [|[c d] [|? ?]]] [|? ?]]|]; try discriminate. repeat match goal with H : (_ && _)%bool = true |- _ => apply Bool.andb_true_iff in H as [? ?] end.
  repeat match goal with H : qeq _ _ = true |- _ => apply qeq_true in H; subst end. reflexivity.
Qed.
Example C90_spreading_ex : exists f kw', view_spreading quiet_lib ex_curves ["r0.xvg"] None [ZQ 10] [1%Qc] (Some None) (InterfaceFiles.mkEnv [] [] [] []) (fun _ => []) [("xlabel", VText "time")] = (ex_curves, Some f, None) /\
  changed "axis" (VText "tight") [("xlabel", VText "time")] kw' /\ fst f = Some [(None, points ex_scaled)] /\ In (Axis (VText "tight")) (snd f) /\ In (XLabel (VText "time")) (snd f).
Proof.
  destruct ex_read as (s & ER & _). pose proof ex_finite as EF. rewrite ER in EF. cbn [fst] in EF.
  destruct (C90_spreading quiet_lib ex_curves ["r0.xvg"] None [ZQ 10] [1%Qc] None (InterfaceFiles.mkEnv [] [] [] []) (fun _ => []) [("xlabel", VText "time")] _ _ _ [ex_scaled] ER EF ex_combined) as (d' & E & H & _).
  destruct (SpreadingRunProps.C75_nothing_saved _ _ _ _ _ _ _ _ _ _ (or_introl eq_refl) E).
  destruct H as (f & x & kw' & HC & EV & [O1 O2 O3 O4]); [left; apply ex_shown; cbn; intuition discriminate|]. specialize (O3 ltac:(intros ? ?; reflexivity)). subst x.
  exists f, kw'. split; [exact EV|]. split; [exact HC|]. split; [exact O1|]. destruct (O2 eq_refl) as [_ _ C]. destruct HC as (I & G & R). split; apply C; try discriminate.
  - cbn [asked]. split; [left; split; [exact I|symmetry; exact G]|reflexivity].
  - assert (setting kw' "xlabel" (VText "time")) as S1 by (left; destruct (R "xlabel" ltac:(discriminate)) as [A ->]; split; [apply A; left; reflexivity|reflexivity]). exact S1.
Qed.
Lemma ex_params : FitFiles.fit_spreading_data ex_curves ["r0.xvg"] None [(1, 1)%R].
Proof.
  exists [("r0.xvg.1", ex_series)]. split; [exact ex_finite|]. constructor; [|constructor]. cbn [fst snd]. apply (PowerFitProps.C59_recovers ex_series None 1%R 1%R); [exact Rlt_0_1| | |auto].
  - exists (1, 1)%Qc, (ZQ 10, ZQ 10). split; [left; reflexivity|]. split; [right; left; reflexivity|]. cbn [fst]. intros C. apply (f_equal this) in C. vm_compute in C. discriminate.
  - intros p Hp. assert (In p ex_series) as Hp' by exact Hp. assert (fst p = snd p /\ (0 < QR (fst p))%R) as [-> L].
    { destruct Hp' as [<- | [<- | []]]; (split; [reflexivity|]); cbn [fst]; [rewrite QR_1; exact Rlt_0_1|rewrite InterfaceAngleProps.QR_ZQ'; apply IZR_lt; lia]. }
    destruct Hp' as [E|[E|[]]]; subst p; cbn [fst snd] in *; rewrite Rpower_1 by exact L; ring.
Qed.
Lemma ex_one : decimals 1 = "1.000".
Proof. unfold decimals. rewrite <- QR_1. rewrite RealTextP.fmt_fixedR_QR. vm_compute. reflexivity. Qed.
Example C90_fit_ex : exists f, fit_figure quiet_lib [("r0.xvg.1", ex_series)] None [(1, 1)%R] [] = (Some f, None) /\
  fst f = Some [(Some "r0.xvg.1", points ex_series); (Some "a=1.000, k=", [(QR 1, Some (1 * Rpower (QR 1) 1)%R); (QR (ZQ 10), Some (1 * Rpower (QR (ZQ 10)) 1)%R)])].
Proof.
  destruct (C90_fit quiet_lib [("r0.xvg.1", ex_series)] None [(1, 1)%R] [] eq_refl ltac:(apply ex_shown; intros []) ltac:(intros [])) as (curves & f & x & E & [O1 O2 O3 O4] & L & H).
  specialize (O3 ltac:(intros ? ?; reflexivity)). subst x. exists f. split; [exact E|]. rewrite O1. f_equal. destruct (H 0%nat _ _ _ _ eq_refl eq_refl) as [H1 H2]. cbn [Nat.mul Nat.add] in H1, H2.
  destruct curves as [|c1 [|c2 [|? ?]]]; try discriminate L. cbn [nth_error] in H1, H2. injection H1 as ->. injection H2 as ->. do 2 f_equal. f_equal.
  assert (fit_text (1, 1)%R = " a=1.000, k=1.000") as -> by (change (fit_text (1, 1)%R) with (" " ++ parameters 1 1)%string; unfold parameters; rewrite ex_one; reflexivity).
  reflexivity.
Qed.
(** Refuted: a fit is labelled with its parameters. *)
Theorem C90_fit_label_refuted : ~ (forall lib d inputs lims out_lims named params kw f x, rmapM SpreadingFiles.finite_series (fst (SpreadingFiles.read_spreading_data d inputs)) = Ok named ->
  FitFiles.fit_spreading_data d inputs lims params -> fit_figure lib named out_lims params kw = (Some f, x) -> x = None ->
  exists curves, fst f = Some curves /\ forall i a k, nth_error params i = Some (a, k) -> exists pts, In (Some (parameters a k), pts) curves).
Proof.
  intros H. destruct C90_fit_ex as (f & E & EC). destruct (H quiet_lib ex_curves ["r0.xvg"] None None _ _ [] f None ex_finite ex_params E eq_refl) as (curves & E' & HP). rewrite EC in E'. injection E' as <-.
  destruct (HP 0%nat 1%R 1%R eq_refl) as (pts & [C|[C|[]]]); apply (f_equal fst) in C; cbn [fst] in C; unfold parameters in C; rewrite ex_one in C; discriminate.
Qed.
Print Assumptions C90_fit_label_refuted.
(** Angles of two files. *)
Example C90_angle_ex : exists d' f, angle_figure quiet_lib 10 AngleRunProps.an_env (txt "'/i_'") (txt "2.0") AngleRunProps.an_disk "i_" true (Some (ZQ 2)) (ZQ 2) "a.xvg" AngleRunProps.an_fo [("save_fig", VText "a.png")] =
    (d', Some f, Ok ([NQ 0 * ZQ 2; NQ 1 * ZQ 2]%Qc, AngleRunProps.an_found)) /\
  fst f = Some [(Some "fit", [(QR (NQ 0 * ZQ 2), Some 180%R); (QR (NQ 1 * ZQ 2), Some 0%R)]); (Some "measured", [(QR (NQ 0 * ZQ 2), Some 90%R); (QR (NQ 1 * ZQ 2), None)])] /\ In Legend (snd f).
Proof.
  destruct AngleRunProps.an_run as (d' & E & _).
  destruct (C90_angle quiet_lib _ _ _ _ _ _ _ _ _ _ _ [("save_fig", VText "a.png")] _ _ _ E) as (f & x & kw' & EF & (D1 & D2 & D3) & [O1 O2 O3 O4] & _).
  - cbn. intuition discriminate.
  - left. apply ex_shown. cbn. intuition discriminate.
  - specialize (O3 ltac:(intros ? ?; reflexivity)). subst x. exists d', f. split; [exact EF|]. split; [exact O1|]. destruct (O2 eq_refl) as [_ _ C]. apply C; [discriminate|]. cbn [asked].
    exists (VBool true). split; [|reflexivity]. left. split; [apply D1; right; cbn; tauto|]. symmetry. apply (D3 "legend"); [right; left; reflexivity|]. cbn. intuition discriminate.
Qed.
(** The samples of the first and of the fourth file. *)
Example C90_samples_ex : exists d' f, sample_figure quiet_lib 10 InterfaceRunProps.ex_env (txt "'/i_'") "area" (ZQ 2) InterfaceRunProps.ex_disk "i_" "s.xvg" InterfaceRunProps.ex_fo [] =
    (d', Some f, Ok [(NQ 0 * ZQ 2, QR (ZQ 8)); (NQ 3 * ZQ 2, QR (ZQ 6))]%Qc) /\
  fst f = Some [(None, [(QR (NQ 0 * ZQ 2), Some (QR (ZQ 8))); (QR (NQ 3 * ZQ 2), Some (QR (ZQ 6)))])] /\ In Show (snd f).
Proof.
  destruct InterfaceRunProps.ex_run as (d' & E & _). destruct (C90_samples quiet_lib _ _ _ _ _ _ _ _ _ [] _ _ E) as (f & x & EF & [O1 O2 O3 O4]).
  specialize (O3 ltac:(intros ? ?; reflexivity)). subst x. exists d', f. split; [exact EF|]. split; [exact O1|]. destruct (O2 eq_refl) as [_ _ C]. apply C; [discriminate|]. apply ex_shown. intros [].
Qed.
(** One averaged interface of two points, saved under the number 1. *)
Example C90_interfaces_ex : exists f, interface_figures quiet_lib 10 InterfaceViewRunProps.ex_disk "i_" 2 (Some "fig_") ".png" InterfaceViewRunProps.ex_fo [] = ([f], Ok ([[1; ZQ 7]%Qc], [[0; 0]%Qc])) /\
  fst f = Some [(None, [(QR 1, Some (QR 0)); (QR (ZQ 7), Some (QR 0))])].
Proof.
  destruct InterfaceViewRunProps.C83_ex as (s & _ & -> & E). unfold interface_figures. rewrite E.
  match goal with |- context [draw_figures ?l ?k ?g] => destruct (draw_spec l k g) as (fs & x & ED & H); rewrite ED end. destruct x as [e|].
  - destruct H as (done & g & rest & fs' & f & _ & _ & _ & P). destruct (labels_none _ _ _ _ _ _ P eq_refl). intros c ? ?. reflexivity.
  - inversion H as [|g f gs fs0 P H']; subst. inversion H'; subst. exists f. split; [reflexivity|]. destruct P as (kw' & _ & [O1 _ _ _]). exact O1.
Qed.
