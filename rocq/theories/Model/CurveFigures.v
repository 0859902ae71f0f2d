(** Model of the figures with curves: /repo/strata/spreading/view.py:57-65,341-354, /repo/strata/spreading/fit.py:45-55,162-177, /repo/strata/interface/angle.py:94-124,
    /repo/strata/interface/sample.py:88,142-150 and /repo/strata/interface/view.py:75-115.  What the drawing library is asked to do is [Figure.call]; whether it
    fails is an argument [lib].  A saved figure is not put on the modelled disk. *)
From Coq Require Import String Ascii Reals.
From Verif.Base Require Import QcX QcR Res Np Bytes.
From Verif.Model Require Import Click Figure.
From Verif.Model Require Utils Cli ViewRuns Text PyText InterfaceFiles InterfaceView Formats RealText SpreadingView SpreadingFiles FitFiles InterfaceAngle SampleFiles InterfaceViewFiles.
Import Utils(disk, fopts).
Local Open Scope string_scope.
Local Open Scope list_scope.
Local Notation length := List.length.

(** [plt.plot(xs, ys, label=...)]: the label, if there is one, and the points; [None]: not a number. *)
Definition plotted := (option string * list (R * option R))%type.
Definition library := list plotted -> list call -> call -> option exn.
Definition figure := ViewRuns.figure (list plotted).
(** [plt.plot(..., label=..., **kwargs)] gets two values for 'label' if the keywords have one (TypeError). *)
Definition labelled (c : plotted) : bool := match fst c with Some _ => true | None => false end.
Definition plots (curves : list plotted) (kw : kwargs) : res (list plotted) := if (existsb labelled curves && Click.has "label" kw)%bool then Err TypeErr else Ok curves.
(** One figure (utils.py:344-405) with curves.  [plt.hold(True)] (view.py:352, fit.py:173) is part of the call [Draw]. *)
Definition curves_figure (lib : library) (kw : kwargs) (curves : list plotted) : figure * option exn :=
  let '(a, calls, x) := ViewRuns.decorated lib kw (plots curves) in ((a, calls), x).
Definition shown (kw : kwargs) : bool := Cli.truthy (get_or "show" (VBool true) kw).

(** ** spreading/view.py *)
(** view.py:354: a series is drawn without a label. *)
Definition spread_curve (c : SpreadingView.curve) : plotted := (None, map (fun p => (QR (fst p), Some (QR (snd p)))) c).
(** view.py:46-65 [view_spreading] with the figure.  The condition (60-61) is [show or (save_fig != None and len(data) > 0)]; 'axis' is always 'tight'.  [kw]: the keywords without
    'sync_radius', 'tau', 'R' and 'save_xvg', which are arguments as in [SpreadingFiles.view_spreading].  The disk, the figure and the exception. *)
Definition view_spreading (lib : library) (d : disk) (files : list string) (sync : option Qc) (tau R : SpreadingView.factor) (save : option (option string)) (e : InterfaceFiles.env)
    (text : SpreadingView.curve -> bytes) (kw : kwargs) : disk * option figure * option exn :=
  match SpreadingFiles.view_spreading d files sync tau R save e text with
  | Err x => (d, None, Some x)
  | Ok (d', _) =>
    let (data, _) := SpreadingFiles.read_spreading_data d files in
    match (do named <- rmapM SpreadingFiles.finite_series data; SpreadingFiles.combine_named named sync tau R) with
    | Err x => (d', None, Some x)
    | Ok combined =>
      if (shown kw || (negb (is_none (get_or "save_fig" VNone kw)) && negb (Nat.eqb (length data) 0)))%bool then
        let (f, x) := curves_figure lib (set "axis" (VText "tight") kw) (map (fun p => spread_curve (snd p)) combined) in (d', Some f, x)
      else (d', None, None)
    end
  end.

(** ** spreading/fit.py *)
(** [s.strip(chars)] for characters [chars] (one byte each; others are not modelled), and [s.strip()]. *)
Fixpoint lstrip_by (drop : ascii -> bool) (s : string) : string := match s with EmptyString => EmptyString | String c s' => if drop c then lstrip_by drop s' else s end.
Fixpoint rstrip_by (drop : ascii -> bool) (s : string) : string :=
  match s with
  | EmptyString => EmptyString
  | String c s' => match rstrip_by drop s' with EmptyString => if drop c then EmptyString else String c EmptyString | t => String c t end
  end.
Definition strip_by (drop : ascii -> bool) (s : string) : string := rstrip_by drop (lstrip_by drop s).
Fixpoint mem (c : ascii) (s : string) : bool := match s with EmptyString => false | String d s => (Ascii.eqb c d || mem c s)%bool end.
Definition white (c : ascii) : bool := let n := nat_of_ascii c in ((Nat.leb 9 n && Nat.leb n 13) || (Nat.leb 28 n && Nat.leb n 32))%bool.
(** fit.py:130: [' a=%.3f, k=%.3f' % (a, k)]. *)
Definition fit_text (p : R * R) : string := (" a=" ++ Formats.string_of (RealText.fmt_fixedR 3 (fst p)) ++ ", k=" ++ Formats.string_of (RealText.fmt_fixedR 3 (snd p)))%string.
(** fit.py:175: [s_fit.name.strip(s_data.name).strip()]. *)
Definition fit_label (fit_name name : string) : string := strip_by white (strip_by (fun c => mem c name) fit_name).
(** fit.py:174-177: two curves for every pair of a series and its fit. *)
Definition fit_curves (fits : list (string * list (R * R))) (data : list (string * SpreadingView.curve)) : list plotted :=
  flat_map (fun p => let '((fname, fit), (name, s)) := p in
    [(Some name, snd (spread_curve s)); (Some (fit_label fname name), map (fun q => (fst q, Some (snd q))) fit)]) (combine fits data).
(** fit.py:45-55 [fit_spreading_data]: the figure for the parameters [params] of the series [data] which were read.  Only 'show' is asked for (52). *)
Definition fit_figure (lib : library) (data : list (string * SpreadingView.curve)) (out_lims : option (option Qc * option Qc)) (params : list (R * R)) (kw : kwargs) : option figure * option exn :=
  if shown kw then let (f, x) := curves_figure lib kw (fit_curves (FitFiles.get_fitted_data fit_text params data out_lims) data) in (Some f, x) else (None, None).

(** ** interface/angle.py *)
(** angle.py:122-124: a curve for each list which is not empty.  [plt.plot] of lists of different lengths fails, which no run does. *)
Definition angle_curves (times : list Qc) (c : InterfaceAngle.found) : list plotted :=
  flat_map (fun kl => match snd kl with [] => [] | l => [(Some (fst kl), combine (map QR times) l)] end) [("fit", InterfaceAngle.fit c); ("measured", InterfaceAngle.measured c)].
(** angle.py:94-106 [interface_contact_angle], with its output as in [SampleFiles.angle_run]; [kw]: the other keywords, without those of the files and 'quiet'. *)
Definition angle_figure (lib : library) (ffuel : nat) (e : InterfaceFiles.env) (base_text height_text : bytes) (d : disk) (base : string) (want : bool) (height : option Qc) (dt : Qc) (save : string)
    (fo : fopts) (kw : kwargs) : disk * option figure * res (list Qc * InterfaceAngle.found) :=
  let (d', r) := SampleFiles.angle_run ffuel e base_text height_text d base want height dt save fo in
  match r with
  | Err x => (d', None, Err x)
  | Ok (times, c) =>
    if (shown kw || Cli.truthy (get_or "save_fig" VNone kw))%bool then
      let kw := ViewRuns.set_default "legend" (VBool (want || match height with Some _ => true | None => false end)) (ViewRuns.set_default "axis" (VText "tight") kw) in
      let (f, x) := curves_figure lib kw (angle_curves times c) in
      (d', Some f, match x with Some x => Err x | None => Ok (times, c) end)
    else (d', None, Ok (times, c))
  end.

(** ** interface/sample.py *)
(** sample.py:88,142-150: the figure is always made, of the samples over time; its keywords do not reach [plt.plot]. *)
Definition sample_figure (lib : library) (ffuel : nat) (e : InterfaceFiles.env) (base_text : bytes) (variable : string) (dt : Qc) (d : disk) (base : string) (save : string) (fo : fopts) (kw : kwargs)
    : disk * option figure * res (list (Qc * R)) :=
  let (d', r) := SampleFiles.sample_interfaces ffuel e base_text variable dt d base save fo in
  match r with
  | Err x => (d', None, Err x)
  | Ok rows =>
    let '(a, calls, x) := ViewRuns.decorated lib kw (fun _ => Ok [(None, map (fun p => (QR (fst p), Some (snd p))) rows)]) in
    (d', Some (a, calls), match x with Some x => Err x | None => Ok rows end)
  end.

(** ** interface/view.py *)
(** view.py:92: the x values over the heights, with the keywords. *)
Definition interface_curve (s : InterfaceView.series) : plotted := (None, map (fun p => (QR (snd p), Some (QR (fst p)))) s).
Fixpoint draw_figures (lib : library) (kw : kwargs) (figs : list InterfaceViewFiles.figure) : list figure * option exn :=
  match figs with
  | [] => ([], None)
  | (name, s) :: figs =>
    let kw' := match name with Some n => set "save_fig" (VText n) kw | None => kw end in
    match curves_figure lib kw' [interface_curve s] with
    | (f, Some x) => ([f], Some x)
    | (f, None) => let (fs, x) := draw_figures lib kw figs in (f :: fs, x)
    end
  end.
(** view.py:10-102 [view_interfaces] without saved averages (C83): figures are made one after the other until one fails.  [kw]: the other keywords, without 'save_fig', 'extfig', those of the
    files and 'quiet'; 'axis' is 'scaled' unless it is given (62). *)
Definition interface_figures (lib : library) (ffuel : nat) (d : disk) (base : string) (average : Z) (save_fig : option string) (figext : string) (fo : fopts) (kw : kwargs)
    : list figure * res (list (list Qc) * list (list Qc)) :=
  let '(_, figs, r) := InterfaceViewFiles.view_interfaces ffuel d base average "" save_fig figext fo in
  match r with
  | Err x => ([], Err x)
  | Ok _ => let (fs, x) := draw_figures lib (ViewRuns.set_default "axis" (VText "scaled") kw) figs in (fs, match x with Some x => Err x | None => r end)
  end.
