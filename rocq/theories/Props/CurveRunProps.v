(** C95: the figures of the commands which draw curves. *)
From Coq Require Import String Ascii Reals.
From Verif.Base Require Import QcX QcR Res Np Bytes.
From Verif.Model Require Import Text PyText Click Cli CliRuns Figure CliDraw CurveFigures CurveRuns.
From Verif.Spec Require Import CliSpec CliReads.
From Verif.Proofs Require Import TextP PyTextP ClickP CliP CliTextP UtilsDisk.
From Verif.Props Require Import CliProps CliTextProps FigureProps ViewRunProps CurveFigureProps CliRunsProps.
From Verif.Model Require Utils Formats SpreadingView SpreadingFiles FitFiles FitRuns InterfaceAngle SampleFiles InterfaceViewFiles InterfaceFiles.
From Verif.Spec Require FilesSpec AverageSpec DiskSpec.
Import DiskSpec(wf).
From Verif.Props Require InterfaceViewRunProps FitRunProps InterfaceRunProps AngleRunProps.
Import Utils(disk).
Local Open Scope string_scope.
Local Open Scope list_scope.
Local Notation length := List.length.

(** ** How a figure looks *)
Record look := mkLook { l_title : string; l_xlabel : string; l_ylabel : string; l_xlim : option Qc * option Qc; l_ylim : option Qc * option Qc; l_axis : option string;
  l_loglog : bool; l_legend : bool; l_fig : option string; l_show : bool }.
Definition bound (l : option Qc) : val := match l with Some q => VNum (Fin q) | None => VNone end.
Definition bounds (l : option Qc * option Qc) : val := VTuple [bound (fst l); bound (snd l)].
(** What is done with the drawing library for a figure which looks like that. *)
Record looks (l : look) (calls : list call) : Prop := {
  k_order : ascending (map rank calls);
  k_title : forall v, In (Title v) calls <-> v = VText (l_title l);
  k_xlabel : forall v, In (XLabel v) calls <-> v = VText (l_xlabel l);
  k_ylabel : forall v, In (YLabel v) calls <-> v = VText (l_ylabel l);
  k_xlim : forall v, In (XLim v) calls <-> v = bounds (l_xlim l);
  k_ylim : forall v, In (YLim v) calls <-> v = bounds (l_ylim l);
  k_axis : forall v, In (Axis v) calls <-> exists a, l_axis l = Some a /\ v = VText a /\ a <> "";
  k_loglog : (In LogX calls <-> l_loglog l = true) /\ (In LogY calls <-> l_loglog l = true);
  k_legend : In Legend calls <-> l_legend l = true;
  k_saved : forall v dpi t, In (Save v dpi t) calls <-> exists p, l_fig l = Some p /\ v = VText p /\ dpi = VInt 150 /\ t = VBool false;
  k_shown : In Show calls <-> l_show l = true;
  k_cleared : In Clear calls;
  k_plain : ~ In Colorbar calls /\ ~ In AxisOff calls /\ (forall v, ~ In (SetCmap v) calls) }.
(** A figure with these curves which looks like that, if the library does not fail; if it does, that is the exception and the last call is the one which failed. *)
Record drawn (lib : library) (l : look) (curves : list plotted) (f : figure) (x : option exn) : Prop := {
  d_curves : fst f = Some curves;
  d_looks : x = None -> looks l (snd f);
  d_ok : lib_ok lib curves -> x = None;
  d_failed : forall e, x = Some e -> exists before c, snd f = before ++ [c] /\ lib curves before c = Some e }.

(** ** The options which make a figure look like that *)
Ltac listed := solve [repeat (first [left; reflexivity | right])].
Definition values (l : look) : list (string * val) :=
  [("title", VText (l_title l)); ("xlabel", VText (l_xlabel l)); ("ylabel", VText (l_ylabel l)); ("xlim", bounds (l_xlim l)); ("ylim", bounds (l_ylim l)); ("axis", vopt VText (l_axis l));
   ("loglog", VBool (l_loglog l)); ("legend", VBool (l_legend l)); ("save_fig", vopt VText (l_fig l)); ("show", VBool (l_show l));
   ("colorbar", VBool false); ("colormap", VNone); ("dpi", VInt 150); ("transparent", VBool false); ("noaxis", VBool false); ("clf", VBool true)].
Definition styled (kw : kwargs) (l : look) : Prop := forall k v, In (k, v) (values l) -> setting kw k v.
Lemma options_fun k v w : In (k, v) options -> In (k, w) options -> v = w.
Proof.
  intros H1 H2. cbn [options In] in H1, H2. repeat (destruct H1 as [E|H1]; [injection E as <- <-; repeat (destruct H2 as [E|H2]; [first [discriminate E | congruence]|]); destruct H2|]). destruct H1.
Qed.
Lemma setting_fun kw k v w : setting kw k v -> setting kw k w -> v = w.
Proof. intros [[A E]|[A E]] [[B F]|[B F]]; [congruence|contradiction|contradiction|exact (options_fun _ _ _ E F)]. Qed.
Lemma setting_is kw k v w : setting kw k v -> (setting kw k w <-> w = v).
Proof. intros H. split; [intros H'; exact (setting_fun _ _ _ _ H' H)|intros ->; exact H]. Qed.
Lemma on_is kw k b : setting kw k (VBool b) -> (on kw k <-> b = true).
Proof.
  intros H. unfold on. split; [intros (v & Hv & T); rewrite (setting_fun _ _ _ _ Hv H) in T; exact T|intros ->; exists (VBool true); split; [exact H|reflexivity]].
Qed.
Lemma styled_looks kw l calls : styled kw l -> complete kw calls -> looks l calls.
Proof.
  intros S [O _ C]. assert (forall k v, In (k, v) (values l) -> forall w, setting kw k w <-> w = v) as E by (intros k v Hk w; apply setting_is, S, Hk).
  assert (forall k b, In (k, VBool b) (values l) -> (on kw k <-> b = true)) as B by (intros k b Hk; apply on_is, S, Hk).
  split; try exact O; intros; rewrite ?C by discriminate; cbn [asked].
  - apply E. cbn [values In]. tauto.
  - apply E. cbn [values In]. tauto.
  - apply E. cbn [values In]. tauto.
  - apply E. cbn [values In]. tauto.
  - apply E. cbn [values In]. tauto.
  - rewrite (E "axis" (vopt VText (l_axis l))) by (listed). destruct (l_axis l) as [a|]; cbn [vopt].
    + split; [intros [-> H]; exists a; split; [reflexivity|]; split; [reflexivity|]; intros ->; discriminate H|]. intros (a' & Ea & -> & H). injection Ea as <-. split; [reflexivity|]. apply Bool.negb_true_iff, String.eqb_neq. exact H.
    + split; [intros [-> H]; discriminate H|intros (a & C' & _); discriminate].
  - split; apply B; listed.
  - apply B. cbn [values In]. tauto.
  - rewrite (E "save_fig" (vopt VText (l_fig l))), (E "dpi" (VInt 150)), (E "transparent" (VBool false)) by (listed). destruct (l_fig l) as [p|]; cbn [vopt].
    + split; [intros (-> & _ & -> & ->); exists p; auto|]. intros (p' & Ep & -> & -> & ->). injection Ep as <-. repeat split; discriminate.
    + split; [intros (-> & H & _); contradiction|]. intros (p' & Ep & _). discriminate.
  - apply B. cbn [values In]. tauto.
  - apply (B "clf" true); [listed|reflexivity].
  - split; [|split; [|intros v; rewrite C by discriminate]]; cbn [asked].
    + rewrite (B "colorbar" false) by (listed). discriminate.
    + rewrite (B "noaxis" false) by (listed). discriminate.
    + rewrite (E "colormap" VNone) by (listed). intros [-> H]. contradiction.
Qed.
Lemma styled_drawn lib kw l curves f x : styled kw l -> outcome lib kw curves f x -> drawn lib l curves f x.
Proof. intros S [O1 O2 O3 O4]. split; try assumption. intros H. exact (styled_looks kw l _ S (O2 H)). Qed.
(** Computed keywords. *)
Lemma styled_by kw l : Forall2 (fun kd kv => fst kd = fst kv /\ In kd options /\ get_or (fst kd) (snd kd) kw = snd kv)
  [("title", VText ""); ("xlabel", VText ""); ("ylabel", VText ""); ("xlim", VNone); ("ylim", VNone); ("axis", VNone); ("loglog", VBool false); ("legend", VBool false); ("save_fig", VNone); ("show", VBool true);
   ("colorbar", VBool false); ("colormap", VNone); ("dpi", VInt 150); ("transparent", VBool false); ("noaxis", VBool false); ("clf", VBool true)] (values l) -> styled kw l.
Proof.
  intros H k v Hin. apply (get_or_setting k (match find (fun kd => String.eqb k (fst kd)) options with Some kd => snd kd | None => VNone end)).
  - cbn [values In] in Hin. repeat (destruct Hin as [E|Hin]; [injection E as <- <-; vm_compute; tauto|]). destruct Hin.
  - revert Hin. revert H. generalize (values l). intros vs H. revert k v. induction H as [|[j d] [j' w] l1 l2 (E & Hd & G) _ IH]; intros k v Hin; [destruct Hin|]. destruct Hin as [Ein|Hin]; [|apply IH; exact Hin].
    injection Ein as <- <-. cbn [fst snd] in E, G. subst j'. assert (match find (fun kd => String.eqb j (fst kd)) options with Some kd => snd kd | None => VNone end = d) as ->; [|exact G].
    cbn [options In] in Hd. repeat (destruct Hd as [E|Hd]; [injection E as <- <-; reflexivity|]). destruct Hd.
Qed.
(** Options which a function of the library sets itself. *)
Lemma setting_changed k v kw kw' j w : changed k v kw kw' -> setting kw' j w <-> if String.eqb j k then w = v else setting kw j w.
Proof.
  intros (H1 & H2 & H3). unfold setting. destruct (String.eqb_spec j k) as [-> | N].
  - split; [intros [[_ ->]|[C _]]; [exact H2|contradiction]|intros ->; left; auto].
  - destruct (H3 j N) as [K G]. rewrite G. split; intros [[A B]|[A B]]; [left; tauto|right; tauto|left; tauto|right; tauto].
Qed.
Lemma setting_default l kw kw' : defaults l kw kw' -> forall j w, (forall v, ~ In (j, v) l) -> setting kw' j w <-> setting kw j w.
Proof.
  intros (H1 & H2 & H3) j w Hj. assert (~ In j (map fst l)) as N by (intros C; apply in_map_iff in C as ([j' v] & <- & C); exact (Hj v C)). unfold setting. split; intros [[A B]|[A B]].
  - left. apply H1 in A as [A|A]; [|contradiction]. split; [exact A|]. rewrite B. apply H2. exact A.
  - right. split; [|exact B]. intros C. apply A, H1. left. exact C.
  - left. split; [apply H1; left; exact A|]. rewrite B. symmetry. apply H2. exact A.
  - right. split; [|exact B]. intros C. apply H1 in C as [C|C]; contradiction.
Qed.
Lemma setting_defaulted l kw kw' : defaults l kw kw' -> forall j w, In (j, w) l -> ~ In j (map fst kw) -> setting kw' j w.
Proof.
  intros (H1 & H2 & H3) j w Hj N. left. split; [apply H1; right; apply (in_map fst) in Hj; exact Hj|symmetry; apply H3; assumption].
Qed.

Lemma styled_axis kw kw' l a : changed "axis" (VText a) kw kw' -> (forall k v, k <> "axis" -> In (k, v) (values l) -> setting kw k v) -> l_axis l = Some a -> styled kw' l.
Proof.
  intros H S E k v Hin. apply (setting_changed _ _ _ _ k v H). destruct (String.eqb_spec k "axis") as [-> | N]; [|exact (S k v N Hin)].
  cbn [values In] in Hin. rewrite E in Hin. repeat (destruct Hin as [Ein|Hin]; [first [discriminate Ein | injection Ein as <-; reflexivity]|]). destruct Hin.
Qed.
Ltac computed := apply styled_by; repeat apply Forall2_cons; try apply Forall2_nil; (split; [reflexivity|split; [listed|reflexivity]]).

(** ** strata spreading view *)
(** A figure with a curve for every series, after scaling and synchronising, if it is to be shown, or saved and there is any series; it looks as the options say, always with tight axes. *)
Theorem C95_spreading_view : forall lib w dashed d argv occs files tau R sync fig save show loglog xlim ylim title xlabel ylabel data warned named curves,
  writes (takes spreading_view_options) argv occs files -> not_given occs help -> (forall f, In f files -> Utils.exists_path d (Formats.os_path f) = true) ->
  chosen occs ["-t"; "--tau"] number_text (ZQ 1) tau -> chosen occs ["-r"; "--radius"] number_text (ZQ 1) R ->
  chosen occs ["-rs"; "--sync_radius"] (some_of number_text) None sync -> chosen occs ["-x"; "--save_xvg"] (some_of as_is) None save ->
  chosen occs ["-o"; "--save_fig"] (some_of as_is) None fig -> switched occs ["--show"] ["--noshow"] true show -> switched occs ["--loglog"] [] false loglog ->
  chosen2 occs ["--xlim"] number_or_none (None, None) xlim -> chosen2 occs ["--ylim"] number_or_none (None, None) ylim ->
  chosen occs ["--title"] as_is "Droplet spreading" title -> chosen occs ["--xlabel"] as_is "Time (ps)" xlabel -> chosen occs ["--ylabel"] as_is "Radius (nm)" ylabel ->
  SpreadingFiles.read_spreading_data d files = (data, warned) -> rmapM SpreadingFiles.finite_series data = Ok named -> SpreadingView.combine_spreading_data (map snd named) sync [tau] [R] = Ok curves ->
  exists d' f x, draw_spreading lib w dashed d ("spreading" :: "view" :: argv) = Some (d', f, x) /\
    SpreadingFiles.view_spreading d files sync [tau] [R] (Some save) (w_env w) (w_show w) = Ok (d', warned) /\
    (show = true \/ (fig <> None /\ data <> []) -> exists g, f = Some g /\
       drawn lib (mkLook title xlabel ylabel xlim ylim (Some "tight") loglog false fig show) (map (fun c => (None, points c)) curves) g x) /\
    (show = false -> fig = None \/ data = [] -> f = None /\ x = None).
Proof.
  intros lib w dashed d argv occs files tau R sync fig save show loglog xlim ylim title xlabel ylabel data warned named curves Hw Hh Hex Ht HR Hs Hsave Hfig Hshow Hlog Hx Hy Hti Hxl Hyl HD HN HC.
  assert (parse d spreading_view_cmd argv = Parsed [VTuple (map VText files)]
    (combine (map o_key (c_opts spreading_view_cmd))
       [vnum tau; vnum R; vopt vnum sync; vopt VText fig; vopt VText save; VBool show; VBool loglog;
        VTuple [vopt vnum (fst xlim); vopt vnum (snd xlim)]; VTuple [vopt vnum (fst ylim); vopt vnum (snd ylim)]; VText title; VText xlabel; VText ylabel])) as Hp.
  { apply (parse_ok d spreading_view_cmd spreading_view_options argv occs files); [reflexivity|reflexivity|exact Hw|exact Hh| |].
    - apply existing_files. exact Hex.
    - repeat constructor.
      + exact (v_num d occs _ "tau" _ _ Ht).
      + exact (v_num d occs _ "R" _ _ HR).
      + exact (v_some_num d occs _ "sync_radius" _ _ Hs).
      + exact (v_some_text d occs _ "save_fig" _ _ Hfig).
      + exact (v_some_text d occs _ "save_xvg" _ _ Hsave).
      + exact (value_flag d occs _ _ "show" _ _ Hshow).
      + exact (value_flag d occs _ _ "loglog" _ _ Hlog).
      + exact (v_opt_nums d occs _ "xlim" _ _ Hx).
      + exact (v_opt_nums d occs _ "ylim" _ _ Hy).
      + exact (v_text d occs _ "title" _ _ Hti).
      + exact (v_text d occs _ "xlabel" _ _ Hxl).
      + exact (v_text d occs _ "ylabel" _ _ Hyl). }
  set (kw := combine _ _) in Hp.
  assert (strata dashed d ("spreading" :: "view" :: argv) = ACall "view_spreading" [VTuple (map VText files)] kw Ignore) as E1.
  { change (strata dashed d ("spreading" :: "view" :: argv)) with (Cli.run d spreading_view_cmd spreading_view_body argv). unfold Cli.run. rewrite Hp. reflexivity. }
  assert (view_args [VTuple (map VText files)] kw = Ok (files, sync, tau, R, save)) as E2.
  { unfold view_args. rewrite texts_of. subst kw. destruct sync as [sync|], save as [save|]; reflexivity. }
  unfold draw_spreading. rewrite E1. change (String.eqb "view_spreading" "view_spreading") with true. cbv iota. rewrite E2. set (kw1 := without _ kw).
  assert (styled (set "axis" (VText "tight") kw1) (mkLook title xlabel ylabel xlim ylim (Some "tight") loglog false fig show)) as S by computed.
  assert (get_or "show" (VBool true) kw1 = VBool show) as G1 by reflexivity. assert (get_or "save_fig" VNone kw1 = vopt VText fig) as G2 by reflexivity.
  destruct (C90_spreading lib d files sync [tau] [R] save (w_env w) (w_show w) kw1 data warned named curves HD HN HC) as (d' & EV & Hyes & Hno).
  assert (shows kw1 <-> show = true) as S1 by (rewrite <- shown_iff; unfold shown; rewrite G1; reflexivity).
  assert (saves kw1 <-> fig <> None) as S2 by (rewrite <- saved_iff, G2; destruct fig; cbn; intuition congruence).
  clearbody kw1. destruct (bool_dec show true) as [-> | NS]; [|apply Bool.not_true_is_false in NS; subst show; destruct fig as [p|]; [destruct data as [|s data]|]].
  - destruct (Hyes (or_introl (proj2 S1 eq_refl))) as (f & x & kw' & HK & EF & O). exists d', (Some f), x. rewrite EF. split; [reflexivity|]. split; [exact EV|]. split; [|discriminate].
    intros _. exists f. split; [reflexivity|]. apply (styled_drawn lib kw'); [|exact O]. apply (styled_axis kw1 kw' _ "tight" HK); [|reflexivity].
    intros k v N Hin. specialize (S k v Hin). apply (setting_changed "axis" (VText "tight") kw1 _ k v (changed_set _ _ _)) in S. destruct (String.eqb_spec k "axis"); [contradiction|exact S].
  - exists d', None, None. rewrite Hno by (intros [C|[_ C]]; [apply S1 in C; discriminate|apply C; reflexivity]). split; [reflexivity|]. split; [exact EV|]. split; [intros [C|[_ C]]; [discriminate|destruct C; reflexivity]|auto].
  - destruct Hyes as (f & x & kw' & HK & EF & O); [right; split; [apply S2; discriminate|discriminate]|]. exists d', (Some f), x. rewrite EF. split; [reflexivity|]. split; [exact EV|]. split; [|intros _ [C|C]; discriminate].
    intros _. exists f. split; [reflexivity|]. apply (styled_drawn lib kw'); [|exact O]. apply (styled_axis kw1 kw' _ "tight" HK); [|reflexivity].
    intros k v N Hin. specialize (S k v Hin). apply (setting_changed "axis" (VText "tight") kw1 _ k v (changed_set _ _ _)) in S. destruct (String.eqb_spec k "axis"); [contradiction|exact S].
  - exists d', None, None. rewrite Hno by (intros [C|[C _]]; [apply S1 in C; discriminate|apply S2 in C; apply C; reflexivity]). split; [reflexivity|]. split; [exact EV|]. split; [intros [C|[C _]]; [discriminate|destruct C; reflexivity]|auto].
Qed.
Print Assumptions C95_spreading_view.

(** ** strata spreading fit *)
Definition spreading_fit_options : list (string * nat) :=
  [("--lims", 2); ("--out_lims", 2); ("-o", 1); ("--save_fig", 1); ("-x", 1); ("--save_xvg", 1); ("--print", 0); ("--noprint", 0); ("--show", 0); ("--noshow", 0);
   ("--loglog", 0); ("--legend", 0); ("--nolegend", 0)]%nat ++ lim_options ++ label_options ++ help_options.
(** If it is to be shown, a figure with two curves for every series, its points and its power law; the files are written before (C94), whatever is asked of the figure. *)
Theorem C95_spreading_fit : forall lib w text params dashed d argv occs files lims out_lims fig save print show loglog legend xlim ylim title xlabel ylabel named,
  writes (takes spreading_fit_options) argv occs files -> not_given occs help -> (forall f, In f files -> Utils.exists_path d (Formats.os_path f) = true) ->
  chosen2 occs ["--lims"] number_or_none (None, None) lims -> chosen2 occs ["--out_lims"] number_or_none (None, None) out_lims ->
  chosen occs ["-o"; "--save_fig"] (some_of as_is) None fig -> chosen occs ["-x"; "--save_xvg"] (some_of as_is) None save -> switched occs ["--print"] ["--noprint"] true print ->
  switched occs ["--show"] ["--noshow"] true show -> switched occs ["--loglog"] [] false loglog -> switched occs ["--legend"] ["--nolegend"] true legend ->
  chosen2 occs ["--xlim"] number_or_none (None, None) xlim -> chosen2 occs ["--ylim"] number_or_none (None, None) ylim ->
  chosen occs ["--title"] as_is "Droplet spreading with fit" title -> chosen occs ["--xlabel"] as_is "Time (ps)" xlabel -> chosen occs ["--ylabel"] as_is "Radius (nm)" ylabel ->
  rmapM SpreadingFiles.finite_series (fst (SpreadingFiles.read_spreading_data d files)) = Ok named -> FitFiles.fit_spreading_data d files (Some lims) params -> wf d -> save <> Some "" ->
  exists d' f x, draw_fits lib w text params dashed d ("spreading" :: "fit" :: argv) = Some (d', f, match x with Some x => Err x | None => Ok params end) /\
    (exists f0 r0, FitRuns.fit_run lib d files (Some lims) (Some out_lims) save (header_of w "strata.spreading.fit") (fun l => w_repr w (bound l)) text params [] = (d', f0, r0)) /\
    (show = true -> exists curves g, f = Some g /\ drawn lib (mkLook title xlabel ylabel xlim ylim None loglog legend fig true) curves g x /\ length curves = (2 * length named)%nat /\
       forall i n s a k, nth_error named i = Some (n, s) -> nth_error params i = Some (a, k) ->
         nth_error curves (2 * i) = Some (Some n, points s) /\
         nth_error curves (2 * i + 1) = Some (Some (fit_label (n ++ " " ++ parameters a k)%string n), map (fun p => (fst p, Some (snd p))) (FitRunProps.power_law s (Some out_lims) a k))) /\
    (show = false -> f = None /\ x = None).
Proof.
  intros lib w text params dashed d argv occs files lims out_lims fig save print show loglog legend xlim ylim title xlabel ylabel named Hw Hh Hex Hl Hol Hfig Hsave Hpr Hshow Hlog Hleg Hx Hy Hti Hxl Hyl HN HP Wd HS.
  assert (parse d spreading_fit_cmd argv = Parsed [VTuple (map VText files)]
    (combine (map o_key (c_opts spreading_fit_cmd))
       [VTuple [vopt vnum (fst lims); vopt vnum (snd lims)]; VTuple [vopt vnum (fst out_lims); vopt vnum (snd out_lims)]; vopt VText fig; vopt VText save; VBool print; VBool show; VBool loglog; VBool legend;
        VTuple [vopt vnum (fst xlim); vopt vnum (snd xlim)]; VTuple [vopt vnum (fst ylim); vopt vnum (snd ylim)]; VText title; VText xlabel; VText ylabel])) as Hp.
  { apply (parse_ok d spreading_fit_cmd spreading_fit_options argv occs files); [reflexivity|reflexivity|exact Hw|exact Hh| |].
    - apply existing_files. exact Hex.
    - repeat constructor.
      + exact (v_opt_nums d occs _ "lims" _ _ Hl).
      + exact (v_opt_nums d occs _ "out_lims" _ _ Hol).
      + exact (v_some_text d occs _ "save_fig" _ _ Hfig).
      + exact (v_some_text d occs _ "save_xvg" _ _ Hsave).
      + exact (value_flag d occs _ _ "print" _ _ Hpr).
      + exact (value_flag d occs _ _ "show" _ _ Hshow).
      + exact (value_flag d occs _ _ "loglog" _ _ Hlog).
      + exact (value_flag d occs _ _ "legend" _ _ Hleg).
      + exact (v_opt_nums d occs _ "xlim" _ _ Hx).
      + exact (v_opt_nums d occs _ "ylim" _ _ Hy).
      + exact (v_text d occs _ "title" _ _ Hti).
      + exact (v_text d occs _ "xlabel" _ _ Hxl).
      + exact (v_text d occs _ "ylabel" _ _ Hyl). }
  set (kw := combine _ _) in Hp.
  assert (strata dashed d ("spreading" :: "fit" :: argv) = ACall "fit_spreading_data" [VTuple (map VText files)] (del "print" kw) (if print then PrintFits else Ignore)) as E1.
  { change (strata dashed d ("spreading" :: "fit" :: argv)) with (Cli.run d spreading_fit_cmd spreading_fit_body argv). unfold Cli.run. rewrite Hp. reflexivity. }
  assert (fit_args [VTuple (map VText files)] (del "print" kw) = Ok (files, lims, out_lims, save)) as E2.
  { unfold fit_args. rewrite texts_of. subst kw. destruct lims as [[?|] [?|]], out_lims as [[?|] [?|]], save as [save|]; reflexivity. }
  unfold draw_fits. rewrite E1. change (String.eqb "fit_spreading_data" "fit_spreading_data") with true. cbv iota. rewrite E2. set (kw1 := without _ _).
  assert (styled kw1 (mkLook title xlabel ylabel xlim ylim None loglog legend fig show)) as S by computed.
  assert (get_or "show" (VBool true) kw1 = VBool show) as G1 by reflexivity. assert (~ In "label" (map fst kw1)) as NL by (intros C; cbn in C; intuition discriminate).
  assert (shows kw1 <-> show = true) as S1 by (rewrite <- shown_iff; unfold shown; rewrite G1; reflexivity).
  clearbody kw1. change (env_in w "strata.spreading.fit") with (header_of w "strata.spreading.fit"). change (fun x : option Qc => w_repr w (limit_val x)) with (fun l : option Qc => w_repr w (bound l)).
  destruct HP as (data & HN' & HF). rewrite HN in HN'. injection HN' as <-.
  assert (length params = length named) as HL by (symmetry; clear -HF; unfold FitFiles.fitting_parameters in HF; induction HF; cbn [length]; congruence).
  unfold FitRuns.fit_run. rewrite HN.
  assert (exists d', (match save with None => (d, None) | Some out => FitRuns.write_fits d out (FitFiles.get_fitted_data fit_text params named (Some out_lims)) (Some lims) (Some out_lims) (header_of w "strata.spreading.fit") (fun l => w_repr w (bound l)) text end) = (d', None)) as (d' & EW).
  { destruct save as [out|]; [|exists d; reflexivity]. unfold FitRuns.write_fits. destruct (String.eqb_spec out "") as [-> | No]; [destruct HS; reflexivity|]. cbv zeta.
    match goal with |- context [Utils.do_call d (_, ?c)] => destruct (do_call_spec d (Formats.os_path out) c Wd) as (d' & E & _) end. rewrite E. exists d'. reflexivity. }
  rewrite EW.
  destruct (fit_figure lib named (Some out_lims) params []) as [f0 x0]. destruct (bool_dec show true) as [-> | NS].
  - destruct (C90_fit lib named (Some out_lims) params kw1 HL (proj2 S1 eq_refl) NL) as (curves & f & x & EF & O & LC & HC). rewrite EF. exists d', (Some f), x. split; [reflexivity|]. split; [eexists; eexists; reflexivity|]. split; [|discriminate].
    intros _. exists curves, f. split; [reflexivity|]. split; [exact (styled_drawn lib kw1 _ _ _ _ S O)|]. split; [exact LC|]. intros i n s a k H1 H2. destruct (HC i n s a k H1 H2) as [A B]. split; [exact A|]. rewrite B. unfold FitRunProps.power_law. rewrite map_map. reflexivity.
  - apply Bool.not_true_is_false in NS. subst show. rewrite (C90_fit_saved_refuted lib named (Some out_lims) params kw1) by (intros C; apply S1 in C; discriminate). exists d', None, None. split; [reflexivity|]. split; [eexists; eexists; reflexivity|]. split; [discriminate|auto].
Qed.
Print Assumptions C95_spreading_fit.

Lemma styled_defaults kw kw' l l' ds : defaults ds kw kw' -> styled kw l ->
  (forall k v, In (k, v) (values l') -> (In (k, v) ds /\ ~ In k (map fst kw)) \/ (In (k, v) (values l) /\ forall v', ~ In (k, v') ds)) -> styled kw' l'.
Proof.
  intros HD S H k v Hin. destruct (H k v Hin) as [[A B]|[A B]]; [exact (setting_defaulted _ _ _ HD k v A B)|]. apply (setting_default _ _ _ HD k v B). exact (S k v A).
Qed.
(** ** strata interface angle *)
(** When there is something to measure: a figure with the curves of the angles and a legend, if it is shown or saved. *)
Theorem C95_interface_angle : forall lib w dashed d argv occs base fit height dt fig save show xlim ylim title xlabel ylabel b e x d' times c,
  writes (takes angle_options) argv occs [base] -> not_given occs ["--help"] ->
  switched occs ["--fit"] ["--nofit"] false fit -> chosen occs ["-h"; "--height"] number_or_none None height -> chosen occs ["-dt"; "--delta_t"] number_text (ZQ 1) dt ->
  chosen occs ["-o"; "--save_fig"] (some_of as_is) None fig -> chosen occs ["-x"; "--save_xvg"] (some_of as_is) None save ->
  switched occs ["--show"] ["--noshow"] false show -> chosen2 occs ["--xlim"] number_or_none (None, None) xlim -> chosen2 occs ["--ylim"] number_or_none (None, None) ylim ->
  chosen occs ["--title"] as_is "Contact angles" title -> chosen occs ["--xlabel"] as_is "t (ps)" xlabel -> chosen occs ["--ylabel"] as_is "angle (deg.)" ylabel ->
  chosen occs ["-b"; "--begin"] (int_from 0) 1%Z b -> chosen occs ["-e"; "--end"] (some_of (int_from 0)) None e -> chosen occs ["--ext"] as_is ".xvg" x ->
  fit = true \/ (exists h, height = Some h /\ h <> 0%Qc) ->
  SampleFiles.angle_run (w_ffuel w) (header_of w "strata.interface.angle") (w_real w base) (w_repr w (match height with Some h => VNum (Fin h) | None => VNone end))
    d base fit height dt (match save with Some s => s | None => "" end) (files_from b e x) = (d', Ok (times, c)) ->
  exists f r, draw_angles lib w dashed d ("interface" :: "angle" :: argv) = Some (d', f, r) /\
    (show = true \/ (exists p, fig = Some p /\ p <> "") -> exists g err, f = Some g /\ r = match err with Some err => Err err | None => Ok (times, c) end /\
       drawn lib (mkLook title xlabel ylabel xlim ylim (Some "tight") false true fig show) (angles_drawn fit height times c) g err) /\
    (show = false -> fig = None -> f = None /\ r = Ok (times, c)).
Proof.
  intros lib w dashed d argv occs base fit height dt fig save show xlim ylim title xlabel ylabel b e x d' times c Hw Hh Hfit Hht Hdt Hf Hsv Hs Hx Hy Ht Hxl Hyl Hb He Hext Hdo HA.
  assert (parse d interface_angle_cmd argv = Parsed [VText base]
    (combine (map o_key (c_opts interface_angle_cmd))
       [VBool fit; vopt vnum height; vnum dt; vopt VText fig; vopt VText save; VBool show; VTuple [vopt vnum (fst xlim); vopt vnum (snd xlim)]; VTuple [vopt vnum (fst ylim); vopt vnum (snd ylim)];
        VText title; VText xlabel; VText ylabel; VInt b; vopt VInt e; VText x])) as HP.
  { apply (parse_ok_h d interface_angle_cmd (flatten interface_angle_cmd) argv occs [base]);
      [reflexivity|reflexivity|eexists; reflexivity|apply (writes_ext (takes angle_options)); [exact angle_takes|exact Hw]|exact Hh|reflexivity|].
    repeat constructor.
      + exact (value_flag d occs _ _ "fit" _ _ Hfit).
      + exact (v_opt_num d occs _ "height" _ _ Hht).
      + exact (v_num d occs _ "delta_t" _ _ Hdt).
      + exact (v_some_text d occs _ "save_fig" _ _ Hf).
      + exact (v_some_text d occs _ "save_xvg" _ _ Hsv).
      + exact (value_flag d occs _ _ "show" _ _ Hs).
      + exact (v_opt_nums d occs _ "xlim" _ _ Hx).
      + exact (v_opt_nums d occs _ "ylim" _ _ Hy).
      + exact (v_text d occs _ "title" _ _ Ht).
      + exact (v_text d occs _ "xlabel" _ _ Hxl).
      + exact (v_text d occs _ "ylabel" _ _ Hyl).
      + exact (v_range d occs _ _ "begin" _ _ Hb).
      + exact (v_some_range d occs _ _ "end" _ _ He).
      + exact (v_text d occs _ "ext" _ _ Hext). }
  set (kw := combine _ _) in HP.
  assert ((truthy (get "fit" kw) || truthy (get "height" kw))%bool = true) as Hgo.
  { change (get "fit" kw) with (VBool fit). change (get "height" kw) with (vopt vnum height). destruct Hdo as [-> | (h & -> & Hn)]; [reflexivity|].
    apply orb_true_iff. right. cbn [vopt truthy vnum]. apply negb_true_iff, qeq_false. exact Hn. }
  assert (exists kw', strata dashed d ("interface" :: "angle" :: argv) = ACall "interface_contact_angle" [VText base] kw' Ignore /\
     w_repr w (get "height" kw') = w_repr w (match height with Some h => VNum (Fin h) | None => VNone end) /\
     angle_args [VText base] kw' = Ok (base, fit, height, dt, match save with Some s => s | None => "" end, files_from b e x) /\
     let kw1 := without ["begin"; "end"; "ext"; "fit"; "height"; "delta_t"; "save_xvg"] kw' in
     styled kw1 (mkLook title xlabel ylabel xlim ylim None false false fig show) /\ get_or "show" (VBool true) kw1 = VBool show /\ get_or "save_fig" VNone kw1 = vopt VText fig /\
     ~ In "label" (map fst kw1) /\ ~ In "axis" (map fst kw1) /\ ~ In "legend" (map fst kw1)) as (kw' & E1 & E2 & E3 & S & G1 & G2 & NL & NA & NG).
  { change (strata dashed d ("interface" :: "angle" :: argv)) with (Cli.run d interface_angle_cmd interface_angle_body argv). unfold Cli.run. rewrite HP. unfold interface_angle_body. rewrite Hgo.
    subst kw. clear. destruct e as [e|], height as [h|], save as [save|];
    (eexists; split; [reflexivity|split; [reflexivity|split; [reflexivity|split; [computed|split; [reflexivity|split; [reflexivity|(split; [|split]; intros C; cbn in C; intuition discriminate)]]]]]]). }
  unfold draw_angles. rewrite E1. change (String.eqb "interface_contact_angle" "interface_contact_angle") with true. cbv iota. rewrite E3, E2. change (env_in w "strata.interface.angle") with (header_of w "strata.interface.angle").
  set (kw1 := without _ kw') in *. assert (shows kw1 <-> show = true) as S1 by (rewrite <- shown_iff; unfold shown; rewrite G1; reflexivity).
  assert (saves kw1 <-> fig <> None) as S2 by (rewrite <- saved_iff, G2; destruct fig; cbn; intuition congruence). clearbody kw1.
  assert (show = true \/ (exists p, fig = Some p /\ p <> "") \/ show = false /\ fig = None \/ show = false /\ fig = Some "") as Cases.
  { destruct show; [auto|]. destruct fig as [p|]; [|auto]. destruct (String.eqb_spec p "") as [-> | N]; [auto|]. right. left. exists p. auto. }
  assert (show = true \/ (exists p, fig = Some p /\ p <> "") -> exists g err, angle_figure lib (w_ffuel w) (header_of w "strata.interface.angle") (w_real w base) (w_repr w (match height with Some h => VNum (Fin h) | None => VNone end))
    d base fit height dt (match save with Some s => s | None => "" end) (files_from b e x) kw1 = (d', Some g, match err with Some err => Err err | None => Ok (times, c) end) /\
    drawn lib (mkLook title xlabel ylabel xlim ylim (Some "tight") false true fig show) (angles_drawn fit height times c) g err) as Hyes.
  { intros HY. destruct (C90_angle lib _ _ _ _ _ _ _ _ _ _ _ kw1 _ _ _ HA NL) as (g & err & kw2 & EF & HD & O & _).
    - destruct HY as [HY|(p & -> & Np)]; [left; apply S1; exact HY|]. right. exists (VText p). split; [apply (S "save_fig"); listed|]. apply Bool.negb_true_iff, String.eqb_neq. exact Np.
    - exists g, err. split; [exact EF|]. apply (styled_drawn lib kw2); [|exact O]. apply (styled_defaults kw1 kw2 _ _ _ HD S).
      assert ((fit || match height with Some _ => true | None => false end)%bool = true) as -> by (destruct Hdo as [-> | (h & -> & _)]; [reflexivity|apply orb_true_r]).
      intros k v H. cbn [values In] in H. repeat (destruct H as [H|H]; [injection H as <- <-; first [left; split; [listed|assumption]|right; split; [listed|intros v' C; repeat (destruct C as [C|C]; [discriminate C|]); destruct C]]|]). destruct H. }
  destruct Cases as [Y|[Y|[[-> ->]|[-> ->]]]].
  - destruct (Hyes (or_introl Y)) as (g & err & -> & D). eexists _, _. split; [reflexivity|]. split; [intros _; exists g, err; auto|]. intros C. congruence.
  - destruct (Hyes (or_intror Y)) as (g & err & -> & D). eexists _, _. split; [reflexivity|]. split; [intros _; exists g, err; auto|]. intros _ C. destruct Y as (p & Y & _). congruence.
  - rewrite (C90_angle_only lib _ _ _ _ _ _ _ _ _ _ _ kw1 _ _ HA); [|right; split; [intros C; apply S1 in C; discriminate|intros C; apply S2 in C; apply C; reflexivity]].
    eexists _, _. split; [reflexivity|]. split; [intros [C|(p & C & _)]; discriminate|auto].
  - unfold angle_figure. rewrite HA. assert ((shown kw1 || truthy (get_or "save_fig" VNone kw1))%bool = false) as ->.
    { rewrite G2. unfold shown. rewrite G1. reflexivity. }
    eexists _, _. split; [reflexivity|]. split; [intros [C|(p & C & N)]; [discriminate|congruence]|intros _ C; discriminate].
Qed.
Print Assumptions C95_interface_angle.

(** ** strata interface sample *)
(** A figure with the samples over their times, whatever is asked for; without a label for the y axis it is that of the variable. *)
Definition sample_label (variable : string) (ylabel : option string) : string :=
  match ylabel with Some (String c s) => String c s | _ => if String.eqb variable "area" then "A (nm^2)" else "L (nm)" end.
Theorem C95_interface_sample : forall lib w dashed d argv occs base variable fig save dt show xlim ylim title xlabel ylabel b e x extfig d' rows,
  writes (takes interface_sample_options) argv occs [base; variable] -> not_given occs help -> In variable ["area"; "length"] ->
  chosen occs ["-o"; "--save_fig"] (some_of as_is) None fig -> chosen occs ["-x"; "--save_xvg"] as_is "" save -> chosen occs ["-dt"; "--delta_t"] number_text (ZQ 1) dt ->
  switched occs ["--show"] ["--noshow"] true show -> chosen2 occs ["--xlim"] number_or_none (None, None) xlim -> chosen2 occs ["--ylim"] number_or_none (None, None) ylim ->
  chosen occs ["--title"] as_is "Droplet interface" title -> chosen occs ["--xlabel"] as_is "t (ps)" xlabel -> chosen occs ["--ylabel"] (some_of as_is) None ylabel ->
  chosen occs ["-b"; "--begin"] (int_from 0) 1%Z b -> chosen occs ["-e"; "--end"] (some_of (int_from 0)) None e -> chosen occs ["--ext"] as_is ".xvg" x ->
  chosen occs ["--extfig"] as_is ".png" extfig ->
  SampleFiles.sample_interfaces (w_ffuel w) (header_of w "strata.interface.sample") (w_real w base) variable dt d base save (files_from b e x) = (d', Ok rows) ->
  exists g err, draw_samples lib w dashed d ("interface" :: "sample" :: argv) = Some (d', Some g, match err with Some err => Err err | None => Ok rows end) /\
    drawn lib (mkLook title xlabel (sample_label variable ylabel) xlim ylim None false false fig show) [(None, map (fun r => (QR (fst r), Some (snd r))) rows)] g err.
Proof.
  intros lib w dashed d argv occs base variable fig save dt show xlim ylim title xlabel ylabel b e x extfig d' rows Hw Hh Hv Hf Hsv Hdt Hs Hx Hy Ht Hxl Hyl Hb He Hext Hef HR.
  assert (parse d interface_sample_cmd argv = Parsed [VText base; VText variable]
    (combine (map o_key (c_opts interface_sample_cmd))
       [vopt VText fig; VText save; vnum dt; VBool show; VTuple [vopt vnum (fst xlim); vopt vnum (snd xlim)]; VTuple [vopt vnum (fst ylim); vopt vnum (snd ylim)];
        VText title; VText xlabel; vopt VText ylabel; VInt b; vopt VInt e; VText x; VText extfig])) as HP.
  { apply (parse_ok d interface_sample_cmd interface_sample_options argv occs [base; variable]); [reflexivity|reflexivity|exact Hw|exact Hh| |].
    - cbn in Hv. destruct Hv as [<- | [<- | []]]; reflexivity.
    - repeat constructor.
      + exact (v_some_text d occs _ "save_fig" _ _ Hf).
      + exact (v_text d occs _ "save_xvg" _ _ Hsv).
      + exact (v_num d occs _ "delta_t" _ _ Hdt).
      + exact (value_flag d occs _ _ "show" _ _ Hs).
      + exact (v_opt_nums d occs _ "xlim" _ _ Hx).
      + exact (v_opt_nums d occs _ "ylim" _ _ Hy).
      + exact (v_text d occs _ "title" _ _ Ht).
      + exact (v_text d occs _ "xlabel" _ _ Hxl).
      + exact (v_some_text d occs _ "ylabel" _ _ Hyl).
      + exact (v_range d occs _ _ "begin" _ _ Hb).
      + exact (v_some_range d occs _ _ "end" _ _ He).
      + exact (v_text d occs _ "ext" _ _ Hext).
      + exact (v_text d occs _ "extfig" _ _ Hef). }
  set (kw := combine _ _) in HP.
  assert (exists kw', strata dashed d ("interface" :: "sample" :: argv) = ACall "sample_interfaces" [VText base; VText variable] kw' Ignore /\
     interface_sample_args [VText base; VText variable] kw' = Ok (base, variable, save, dt, files_from b e x) /\
     styled (without ["begin"; "end"; "ext"; "save_xvg"; "delta_t"] kw') (mkLook title xlabel (sample_label variable ylabel) xlim ylim None false false fig show)) as (kw' & E1 & E3 & S).
  { subst kw. clear - HP. destruct e as [e|], ylabel as [[|y ys]|];
    (eexists; split;
      [change (strata dashed d ("interface" :: "sample" :: argv)) with (Cli.run d interface_sample_cmd interface_sample_body argv); unfold Cli.run; rewrite HP; reflexivity|split; [reflexivity|computed]]). }
  unfold draw_samples. rewrite E1. change (String.eqb "sample_interfaces" "sample_interfaces") with true. cbv iota. rewrite E3. change (env_in w "strata.interface.sample") with (header_of w "strata.interface.sample").
  destruct (C90_samples lib _ _ _ _ _ _ _ _ _ (without ["begin"; "end"; "ext"; "save_xvg"; "delta_t"] kw') _ _ HR) as (g & err & EF & O). rewrite EF. exists g, err. split; [reflexivity|]. exact (styled_drawn lib _ _ _ _ _ S O).
Qed.
Print Assumptions C95_interface_sample.

(** ** strata interface view *)
(** The figure of an averaged interface (its file and its points): x over height, saved as that file. *)
Definition interface_drawn (lib : library) (l : option string -> look) (g : InterfaceViewFiles.figure) (f : figure) (err : option exn) : Prop :=
  drawn lib (l (fst g)) [(None, profile (snd g))] f err.
(** Without saved averages: every averaged interface (C83) has its own figure, in order, until one fails. *)
Theorem C95_interface_view : forall lib w dashed d argv occs base M fig show xlim ylim title xlabel ylabel b e x extfig n vs, (0 < M)%nat ->
  writes (takes interface_view_options) argv occs [base] -> not_given occs help -> chosen occs ["-av"; "--average"] (int_from 1) 1%Z (Z.of_nat M) ->
  chosen occs ["-o"; "--save_fig"] (some_of as_is) None fig -> chosen occs ["-x"; "--save_xvg"] as_is "" "" ->
  switched occs ["--show"] ["--noshow"] true show -> chosen2 occs ["--xlim"] number_or_none (None, None) xlim -> chosen2 occs ["--ylim"] number_or_none (None, None) ylim ->
  chosen occs ["--title"] as_is "Droplet interface" title -> chosen occs ["--xlabel"] as_is "x (nm)" xlabel -> chosen occs ["--ylabel"] as_is "y (nm)" ylabel ->
  chosen occs ["-b"; "--begin"] (int_from 0) 1%Z b -> chosen occs ["-e"; "--end"] (some_of (int_from 0)) None e -> chosen occs ["--ext"] as_is ".xvg" x ->
  chosen occs ["--extfig"] as_is ".png" extfig ->
  (n + 1 < w_ffuel w)%nat -> FilesSpec.run_length (fun z => match e with Some m => (z <= m)%Z | None => True end /\ Utils.exists_path d (Formats.os_path (Utils.fname base z x)) = true) b n ->
  length vs = Nat.div n M -> (forall i v, nth_error vs i = Some v -> InterfaceViewRunProps.group_shows d (InterfaceViewRunProps.group_names base x b M i) v) ->
  exists K fs err, (forall i, AverageSpec.bundle_output b M false i (K + Z.of_nat i)) /\
    let gs := InterfaceViewRunProps.figures fig extfig K vs in
    let l := fun name => mkLook title xlabel ylabel xlim ylim (Some "scaled") false false name show in
    match err with
    | None => draw_interfaces lib w dashed d ("interface" :: "view" :: argv) = Some (fs, Ok (map (map snd) (InterfaceViewRunProps.found vs), map (map fst) (InterfaceViewRunProps.found vs))) /\
        Forall2 (fun g f => interface_drawn lib l g f None) gs fs
    | Some err => draw_interfaces lib w dashed d ("interface" :: "view" :: argv) = Some (fs, Err err) /\ ~ (forall c, lib_ok lib c) /\
        exists done g rest fs' f, gs = done ++ g :: rest /\ fs = fs' ++ [f] /\ Forall2 (fun g f => interface_drawn lib l g f None) done fs' /\ interface_drawn lib l g f (Some err)
    end.
Proof.
  intros lib w dashed d argv occs base M fig show xlim ylim title xlabel ylabel b e x extfig n vs HM Hw Hh Hav Hf Hsv Hs Hx Hy Ht Hxl Hyl Hb He Hext Hef Hfuel Hr HL HG.
  assert (parse d interface_view_cmd argv = Parsed [VText base]
    (combine (map o_key (c_opts interface_view_cmd))
       [VInt (Z.of_nat M); vopt VText fig; VText ""; VBool show; VTuple [vopt vnum (fst xlim); vopt vnum (snd xlim)]; VTuple [vopt vnum (fst ylim); vopt vnum (snd ylim)];
        VText title; VText xlabel; VText ylabel; VInt b; vopt VInt e; VText x; VText extfig])) as HP.
  { apply (parse_ok d interface_view_cmd interface_view_options argv occs [base]); [reflexivity|reflexivity|exact Hw|exact Hh|reflexivity|].
    repeat constructor.
      + exact (v_range d occs _ _ "average" _ _ Hav).
      + exact (v_some_text d occs _ "save_fig" _ _ Hf).
      + exact (v_text d occs _ "save_xvg" _ _ Hsv).
      + exact (value_flag d occs _ _ "show" _ _ Hs).
      + exact (v_opt_nums d occs _ "xlim" _ _ Hx).
      + exact (v_opt_nums d occs _ "ylim" _ _ Hy).
      + exact (v_text d occs _ "title" _ _ Ht).
      + exact (v_text d occs _ "xlabel" _ _ Hxl).
      + exact (v_text d occs _ "ylabel" _ _ Hyl).
      + exact (v_range d occs _ _ "begin" _ _ Hb).
      + exact (v_some_range d occs _ _ "end" _ _ He).
      + exact (v_text d occs _ "ext" _ _ Hext).
      + exact (v_text d occs _ "extfig" _ _ Hef). }
  set (kw := combine _ _) in HP.
  assert (exists kw', strata dashed d ("interface" :: "view" :: argv) = ACall "view_interfaces" [VText base] kw' UnpackTwo /\
     interface_view_args [VText base] kw' = Ok (base, Z.of_nat M, "", fig, extfig, files_from b e x) /\
     let kw1 := without ["begin"; "end"; "ext"; "average"; "save_xvg"; "save_fig"; "extfig"] kw' in
     styled kw1 (mkLook title xlabel ylabel xlim ylim None false false None show) /\ ~ In "axis" (map fst kw1)) as (kw' & E1 & E3 & S & NA).
  { subst kw. clear - HP. destruct e as [e|], fig as [fig|];
    (eexists; split;
      [change (strata dashed d ("interface" :: "view" :: argv)) with (Cli.run d interface_view_cmd interface_view_body argv); unfold Cli.run; rewrite HP; reflexivity
      |split; [reflexivity|split; [computed|intros C; cbn in C; intuition discriminate]]]). }
  unfold draw_interfaces. rewrite E1. change (String.eqb "view_interfaces" "view_interfaces") with true. cbv iota. rewrite E3. change (String.eqb "" "") with true. cbv iota. set (kw1 := without _ kw') in *. clearbody kw1.
  destruct (C90_interfaces lib (w_ffuel w) d base M fig extfig (files_from b e x) kw1 n vs HM Hfuel) as (K & fs & err & kw2 & HK & HD & H); [destruct e; exact Hr|exact HL|exact HG|].
  set (l := fun name => mkLook title xlabel ylabel xlim ylim (Some "scaled") false false name show).
  assert (styled kw2 (l None)) as S2.
  { apply (styled_defaults kw1 kw2 _ _ _ HD S). intros k v H'. cbn [values In] in H'.
    repeat (destruct H' as [H'|H']; [injection H' as <- <-; first [left; split; [listed|assumption]|right; split; [listed|intros v' C; repeat (destruct C as [C|C]; [discriminate C|]); destruct C]]|]). destruct H'. }
  assert (forall g f err, interface_picture lib kw2 g f err -> interface_drawn lib l g f err) as HI.
  { intros g f err' (kw3 & HC & O). apply (styled_drawn lib kw3); [|exact O]. destruct (fst g) as [name|]; [|subst kw3; exact S2].
    intros k v Hin. apply (setting_changed _ _ _ _ k v HC). destruct (String.eqb_spec k "save_fig") as [-> | N].
    - cbn [values In] in Hin. repeat (destruct Hin as [Ein|Hin]; [first [discriminate Ein | injection Ein as <-; reflexivity]|]). destruct Hin.
    - apply S2. revert Hin. cbn [values In l l_title l_xlabel l_ylabel l_xlim l_ylim l_axis l_loglog l_legend l_fig l_show]. intros Hin.
      repeat (destruct Hin as [Hin|Hin]; [injection Hin as <- <-; first [congruence|listed]|]). destruct Hin. }
  exists K, fs, err. split; [exact HK|]. cbv zeta. cbv zeta in H. destruct err as [err|].
  - destruct H as (E & NO & done & g & rest & fs' & f & Eg & Ef & H1 & H2). rewrite E. split; [reflexivity|]. split; [exact NO|]. exists done, g, rest, fs', f. split; [exact Eg|]. split; [exact Ef|]. split; [|apply HI; exact H2].
    clear -H1 HI. induction H1; constructor; auto.
  - destruct H as (E & H1). rewrite E. split; [reflexivity|]. clear -H1 HI. induction H1; constructor; auto.
Qed.
Print Assumptions C95_interface_view.

(** ** Refuted: a figure which is to be saved is saved *)
(** 'strata spreading fit --noshow -o fig.png' makes no figure at all. *)
Theorem C95_fit_not_saved_refuted : forall lib w text params dashed, FitFiles.fit_spreading_data ex_curves ["r0.xvg"] (Some (None, None)) params ->
  draw_fits lib w text params dashed ex_curves ["spreading"; "fit"; "--noshow"; "-o"; "fig.png"; "r0.xvg"] = Some (ex_curves, None, Ok params).
Proof.
  intros lib w text params dashed HP.
  destruct (C95_spreading_fit lib w text params dashed ex_curves ["--noshow"; "-o"; "fig.png"; "r0.xvg"] [("--noshow", []); ("-o", ["fig.png"])] ["r0.xvg"] (None, None) (None, None) (Some "fig.png") None true false false true
    (None, None) (None, None) "Droplet spreading with fit" "Time (ps)" "Radius (nm)" [("r0.xvg.1", ex_series)]) as (d' & f & x & E & (f0 & r0 & EF) & _ & HN).
  - apply (writes_ext (arity spreading_fit_cmd)); [intros f; exact (arity_flatten spreading_fit_cmd f)|]. apply scan_writes; reflexivity.
  - not_there.
  - intros f [<- | []]. reflexivity.
  - not_said.
  - not_said.
  - left. exists "-o", "fig.png". split; [split; [cbn; auto|exists [("--noshow", [])], []; split; [reflexivity|not_there]]|]. exists "fig.png". split; reflexivity.
  - not_said.
  - not_said.
  - left. exists "--noshow". split; [|cbn; intuition discriminate]. split; [cbn; auto|]. exists [], [("-o", ["fig.png"])]. split; [reflexivity|not_there].
  - not_said.
  - not_said.
  - not_said.
  - not_said.
  - not_said.
  - not_said.
  - not_said.
  - exact ex_finite.
  - exact HP.
  - exact FitRunProps.ex_wf.
  - discriminate.
  - destruct (HN eq_refl) as [-> ->]. rewrite E. do 2 f_equal. assert (d' = fst (fst (FitRuns.fit_run lib ex_curves ["r0.xvg"] (Some (None, None)) (Some (None, None)) None (header_of w "strata.spreading.fit") (fun l => w_repr w (bound l)) text params []))) as -> by (rewrite EF; reflexivity).
    f_equal. unfold FitRuns.fit_run. rewrite ex_finite. destruct (fit_figure lib [("r0.xvg.1", ex_series)] (Some (None, None)) params []). reflexivity.
Qed.
Print Assumptions C95_fit_not_saved_refuted.

(** ** Concrete command lines *)
Example C95_ex : forall w, exists f, draw_spreading quiet_lib w true ex_curves ["spreading"; "view"; "-t"; "10"; "r0.xvg"; "--title"; "Two drops"; "-o"; "a.png"; "--noshow"] = (Some (ex_curves, Some f, None)) /\
  fst f = Some [(None, points ex_scaled)] /\ In (Title (VText "Two drops")) (snd f) /\ In (Save (VText "a.png") (VInt 150) (VBool false)) (snd f) /\ ~ In Show (snd f) /\ In (Axis (VText "tight")) (snd f).
Proof.
  intros w. destruct ex_read as (s & ER & _). pose proof ex_finite as EF. rewrite ER in EF. cbn [fst] in EF.
  destruct (C95_spreading_view quiet_lib w true ex_curves ["-t"; "10"; "r0.xvg"; "--title"; "Two drops"; "-o"; "a.png"; "--noshow"] [("-t", ["10"]); ("--title", ["Two drops"]); ("-o", ["a.png"]); ("--noshow", [])] ["r0.xvg"]
    (ZQ 10) (ZQ 1) None (Some "a.png") None false false (None, None) (None, None) "Two drops" "Time (ps)" "Radius (nm)" [s] [] [("r0.xvg.1", ex_series)] [ex_scaled]) as (d' & f & x & E & EV & HY & _).
  - apply (writes_ext (arity spreading_view_cmd)); [intros f; exact (arity_flatten spreading_view_cmd f)|]. apply scan_writes; reflexivity.
  - not_there.
  - intros f [<- | []]. reflexivity.
  - left. exists "-t", "10". split; [split; [cbn; auto|exists [], [("--title", ["Two drops"]); ("-o", ["a.png"]); ("--noshow", [])]; split; [reflexivity|not_there]]|]. apply py_float_iff. vm_compute. reflexivity.
  - not_said.
  - not_said.
  - not_said.
  - left. exists "-o", "a.png". split; [split; [cbn; auto|exists [("-t", ["10"]); ("--title", ["Two drops"])], [("--noshow", [])]; split; [reflexivity|not_there]]|]. exists "a.png". split; reflexivity.
  - left. exists "--noshow". split; [|cbn; intuition discriminate]. split; [cbn; auto|]. exists [("-t", ["10"]); ("--title", ["Two drops"]); ("-o", ["a.png"])], []. split; [reflexivity|not_there].
  - not_said.
  - not_said.
  - not_said.
  - left. exists "--title", "Two drops". split; [split; [cbn; auto|exists [("-t", ["10"])], [("-o", ["a.png"]); ("--noshow", [])]; split; [reflexivity|not_there]]|reflexivity].
  - not_said.
  - not_said.
  - exact ER.
  - exact EF.
  - exact ex_combined.
  - destruct (SpreadingRunProps.C75_nothing_saved _ _ _ _ _ _ _ _ _ _ (or_introl eq_refl) EV). destruct HY as (g & -> & [D1 D2 D3 _]); [right; split; discriminate|]. specialize (D3 ltac:(intros ? ?; reflexivity)). subst x.
    specialize (D2 eq_refl). exists g. split; [exact E|]. split; [exact D1|]. destruct D2. split; [apply k_title0; reflexivity|]. split; [apply k_saved0; exists "a.png"; auto|]. split; [intros C; apply k_shown0 in C; discriminate|].
    apply k_axis0. exists "tight". split; [reflexivity|]. split; [reflexivity|discriminate].
Qed.
(** The samples of C80, drawn and saved but not shown. *)
Example C95_sample_ex : forall w, w_ffuel w = 10%nat -> exists d' f,
  draw_samples quiet_lib w true InterfaceRunProps.ex_disk ["interface"; "sample"; "i_"; "area"; "-x"; "s.xvg"; "-dt"; "2"; "-o"; "f.png"; "--noshow"] =
    Some (d', Some f, Ok [(NQ 0 * ZQ 2, QR (ZQ 8)); (NQ 3 * ZQ 2, QR (ZQ 6))]) /\
  fst f = Some [(None, [(QR (NQ 0 * ZQ 2), Some (QR (ZQ 8))); (QR (NQ 3 * ZQ 2), Some (QR (ZQ 6)))])] /\
  In (YLabel (VText "A (nm^2)")) (snd f) /\ In (Save (VText "f.png") (VInt 150) (VBool false)) (snd f) /\ ~ In Show (snd f).
Proof.
  intros w Hw.
  destruct (InterfaceRunProps.C80_run 10 (header_of w "strata.interface.sample") (w_real w "i_") "area" (ZQ 2) InterfaceRunProps.ex_disk "i_" "s.xvg" (files_from 1 None ".xvg") 4 InterfaceRunProps.ex_samples
    InterfaceRunProps.ex_wf ltac:(discriminate) ltac:(lia) InterfaceRunProps.ex_range InterfaceRunProps.ex_apart eq_refl InterfaceRunProps.ex_shows) as (d' & ER & _).
  rewrite <- Hw in ER.
  destruct (C95_interface_sample quiet_lib w true InterfaceRunProps.ex_disk ["i_"; "area"; "-x"; "s.xvg"; "-dt"; "2"; "-o"; "f.png"; "--noshow"]
    [("-x", ["s.xvg"]); ("-dt", ["2"]); ("-o", ["f.png"]); ("--noshow", [])] "i_" "area" (Some "f.png") "s.xvg" (ZQ 2) false (None, None) (None, None) "Droplet interface" "t (ps)" None 1 None ".xvg" ".png" d'
    (InterfaceRunProps.rows_of_samples (ZQ 2) InterfaceRunProps.ex_samples)) as (g & err & E & [D1 D2 D3 _]).
  - apply (writes_ext (arity interface_sample_cmd)); [intros f; exact (arity_flatten interface_sample_cmd f)|]. apply scan_writes; reflexivity.
  - not_there.
  - cbn. auto.
  - left. exists "-o", "f.png". split; [split; [cbn; auto|exists [("-x", ["s.xvg"]); ("-dt", ["2"])], [("--noshow", [])]; split; [reflexivity|not_there]]|]. exists "f.png". split; reflexivity.
  - left. exists "-x", "s.xvg". split; [split; [cbn; auto|exists [], [("-dt", ["2"]); ("-o", ["f.png"]); ("--noshow", [])]; split; [reflexivity|not_there]]|reflexivity].
  - left. exists "-dt", "2". split; [split; [cbn; auto|exists [("-x", ["s.xvg"])], [("-o", ["f.png"]); ("--noshow", [])]; split; [reflexivity|not_there]]|]. apply py_float_iff. vm_compute. reflexivity.
  - left. exists "--noshow". split; [|cbn; intuition discriminate]. split; [cbn; auto|]. exists [("-x", ["s.xvg"]); ("-dt", ["2"]); ("-o", ["f.png"])], []. split; [reflexivity|not_there].
  - not_said.
  - not_said.
  - not_said.
  - not_said.
  - not_said.
  - not_said.
  - not_said.
  - not_said.
  - not_said.
  - exact ER.
  - specialize (D3 ltac:(intros ? ?; reflexivity)). subst err. specialize (D2 eq_refl). exists d', g. split; [exact E|]. split; [exact D1|]. destruct D2.
    split; [apply k_ylabel0; reflexivity|]. split; [apply k_saved0; exists "f.png"; auto|]. intros C. apply k_shown0 in C. discriminate.
Qed.
(** The angles of C82 with their fit, drawn and shown. *)
Example C95_angle_ex : forall w, w_ffuel w = 10%nat -> exists d' f,
  draw_angles quiet_lib w true AngleRunProps.an_disk ["interface"; "angle"; "i_"; "--fit"; "--height"; "2"; "-dt"; "2"; "-x"; "a.xvg"; "--show"; "--xlim"; "0"; "none"] =
    Some (d', Some f, Ok ([NQ 0 * ZQ 2; NQ 1 * ZQ 2], AngleRunProps.an_found)) /\
  In Show (snd f) /\ In (XLim (bounds (Some (ZQ 0), None))) (snd f) /\ In (Legend) (snd f) /\ fst f = Some (angles_drawn true (Some (ZQ 2)) [NQ 0 * ZQ 2; NQ 1 * ZQ 2] AngleRunProps.an_found).
Proof.
  intros w Hw.
  destruct (AngleRunProps.C82_run 10 (header_of w "strata.interface.angle") (w_real w "i_") (w_repr w (VNum (Fin (ZQ 2)))) AngleRunProps.an_disk "i_" true (Some (ZQ 2)) (ZQ 2) "a.xvg" (files_from 1 None ".xvg") 2 AngleRunProps.an_found
    AngleRunProps.an_wf ltac:(discriminate) ltac:(lia) ltac:(lia) (or_introl eq_refl) AngleRunProps.an_range AngleRunProps.an_loop) as (d' & ER & _).
  rewrite <- Hw in ER.
  set (argv := ["i_"; "--fit"; "--height"; "2"; "-dt"; "2"; "-x"; "a.xvg"; "--show"; "--xlim"; "0"; "none"]).
  destruct (C95_interface_angle quiet_lib w true AngleRunProps.an_disk argv [("--fit", []); ("--height", ["2"]); ("-dt", ["2"]); ("-x", ["a.xvg"]); ("--show", []); ("--xlim", ["0"; "none"])] "i_" true (Some (ZQ 2)) (ZQ 2) None (Some "a.xvg") true
    (Some (ZQ 0), None) (None, None) "Contact angles" "t (ps)" "angle (deg.)" 1 None ".xvg" d' [NQ 0 * ZQ 2; NQ 1 * ZQ 2] AngleRunProps.an_found) as (f & r & E & HD & _).
  - apply (writes_ext (arity interface_angle_cmd)); [intros f; rewrite angle_takes; exact (arity_flatten interface_angle_cmd f)|]. apply scan_writes; reflexivity.
  - not_there.
  - left. exists "--fit". split; [|cbn; intuition discriminate]. split; [cbn; auto|]. eexists [], _. split; [reflexivity|not_there].
  - left. exists "--height", "2". split; [split; [cbn; auto|eexists [("--fit", [])], _; split; [reflexivity|not_there]]|]. left. exists (ZQ 2). split; [|reflexivity]. apply py_float_iff. vm_compute. reflexivity.
  - left. exists "-dt", "2". split; [split; [cbn; auto|eexists [("--fit", []); ("--height", ["2"])], _; split; [reflexivity|not_there]]|]. apply py_float_iff. vm_compute. reflexivity.
  - not_said.
  - left. exists "-x", "a.xvg". split; [split; [cbn; auto|eexists [("--fit", []); ("--height", ["2"]); ("-dt", ["2"])], _; split; [reflexivity|not_there]]|]. exists "a.xvg". split; reflexivity.
  - left. exists "--show". split; [|cbn; intuition discriminate]. split; [cbn; auto|]. eexists [("--fit", []); ("--height", ["2"]); ("-dt", ["2"]); ("-x", ["a.xvg"])], _. split; [reflexivity|not_there].
  - left. exists "--xlim", "0", "none". split; [split; [cbn; auto|eexists [("--fit", []); ("--height", ["2"]); ("-dt", ["2"]); ("-x", ["a.xvg"]); ("--show", [])], _; split; [reflexivity|not_there]]|]. split.
    + left. exists (ZQ 0). split; [|reflexivity]. apply py_float_iff. vm_compute. reflexivity.
    + right. split; [|reflexivity]. unfold none_text, any_case; cbn; repeat constructor; left; reflexivity.
  - not_said.
  - not_said.
  - not_said.
  - not_said.
  - not_said.
  - not_said.
  - not_said.
  - left. reflexivity.
  - exact ER.
  - destruct (HD (or_introl eq_refl)) as (g & err & -> & Hr & [D1 D2 D3 _]). specialize (D3 ltac:(intros ? ?; reflexivity)). subst err r. specialize (D2 eq_refl). exists d', g. split; [exact E|]. destruct D2.
    split; [apply k_shown0; reflexivity|]. split; [apply k_xlim0; reflexivity|]. split; [apply k_legend0; reflexivity|exact D1].
Qed.
