(** C89: the figures of the viewing commands. *)
From Coq Require Import String Ascii Reals Permutation.
From Verif.Base Require Import QcX QcR Res Np ListX Sort Sums Bytes.
From Verif.Model Require Import Text PyText Click Cli Figure Bins Flow ViewFlow ViewRuns CliDraw.
From Verif.Model Require Utils Formats Average InterfaceFiles.
From Verif.Spec Require Import CliSpec CliReads FlowSpec GridSpec FieldSpec ViewRunSpec.
From Verif.Proofs Require Import TextP PyTextP ClickP CliP CliTextP.
From Verif.Props Require Import CliProps CliTextProps CliNamesProps FigureProps ViewRunProps.
From Verif.Props Require MapRunProps.
Local Open Scope string_scope.
Local Open Scope list_scope.
Local Notation length := List.length.

Lemma get_without ks k kw : ~ In k ks -> get k (without ks kw) = get k kw.
Proof.
  unfold without. revert kw. induction ks as [|j ks IH]; intros kw H; [reflexivity|]. cbn [fold_left]. rewrite IH by (intros C; apply H; right; exact C). apply get_del_other. intros ->. apply H. left. reflexivity.
Qed.
Lemma keys_without ks k kw : In k (map fst (without ks kw)) <-> In k (map fst kw) /\ ~ In k ks.
Proof.
  unfold without. revert kw. induction ks as [|j ks IH]; intros kw; cbn [fold_left In]; [tauto|]. rewrite IH, keys_del. intuition congruence.
Qed.
Lemma get_or_in k v kw : In k (map fst kw) -> get_or k v kw = get k kw.
Proof. intros H. unfold get_or. apply FigureProps.has_in in H. rewrite H. reflexivity. Qed.
Lemma get_or_out k v kw : ~ In k (map fst kw) -> get_or k v kw = v.
Proof. intros H. unfold get_or. destruct (Click.has k kw) eqn:E; [apply FigureProps.has_in in E; contradiction|reflexivity]. Qed.
Lemma file_names_texts l : file_names (map VText l) = Some l.
Proof. unfold file_names. rewrite texts_of. reflexivity. Qed.
Lemma spread_texts l : spread_args [VTuple (map VText l)] = map VText l.
Proof. unfold spread_args. cbn [flat_map]. apply app_nil_r. Qed.
Lemma existing_values d : forall l vs, option_mapM (convert d KExisting) l = Some vs -> vs = map VText l.
Proof.
  induction l as [|s l IH]; intros vs H; [injection H as <-; reflexivity|].
  change (match convert d KExisting s, option_mapM (convert d KExisting) l with Some b, Some bs => Some (b :: bs) | _, _ => None end = Some vs) in H.
  unfold convert at 1 in H. destruct (Utils.exists_path d (Formats.os_path s)); [|discriminate]. destruct (option_mapM (convert d KExisting) l) as [vs'|]; [|discriminate]. injection H as <-.
  cbn [map]. f_equal. apply IH. reflexivity.
Qed.
(** A viewing command which is accepted: its options and its files. *)
Lemma view_call dashed d words c touched fn argv occs files : In (words, c, touched, fn) (commands dashed) -> c_args c = [files_arg] -> accepted d c argv -> writes (takes (flatten c)) argv occs files ->
  exists kw, strata dashed d (words ++ argv) = body_of fn c [VTuple (map VText files)] kw /\ (forall o, In o (c_opts c) -> opt_value d o occs = Some (get (o_key o) kw)) /\ map fst kw = map o_key (c_opts c).
Proof.
  intros H Hargs Hacc Hw. destruct (commands_run dashed d words c touched fn argv H) as (E & Hg & Hd & Hk). apply (parse_accepted d c argv Hg Hd) in Hacc. destruct Hacc as (args & kw & Hp).
  destruct (parse_values d c argv args kw occs files Hg Hk Hw Hp) as [Hv Ha]. rewrite Hargs in Ha.
  assert (args = [VTuple (map VText files)]) as ->.
  { clear -Ha. unfold files_arg in Ha. cbn in Ha. destruct (option_mapM (convert d KExisting) files) as [vs|] eqn:E; [|destruct files; discriminate]. apply existing_values in E. subst vs. destruct files; injection Ha as <-; reflexivity. }
  exists kw. split; [rewrite E; unfold Cli.run; rewrite Hp; reflexivity|]. split; [exact Hv|]. exact (parse_keys d c argv _ kw Hp).
Qed.

(** ** What a figure is asked to show *)
(** The title, the file and the window of a figure are those of the command line. *)
Record as_asked (occs : list (string * list string)) (title : string) (calls : list call) : Prop := {
  aa_title : forall t, chosen occs ["--title"] as_is title t -> forall v, In (Title v) calls <-> v = VText t;
  aa_saved : forall p, (exists dpi t, In (Save (VText p) dpi t) calls) <-> exists f, given occs ["-o"; "--save_fig"] f [p];
  aa_unsaved : not_given occs ["-o"; "--save_fig"] -> forall v dpi t, ~ In (Save v dpi t) calls;
  aa_shown : forall b, switched occs ["--show"] ["--noshow"] true b -> (In Show calls <-> b = true) }.
Lemma setting_in kw k v w : In k (map fst kw) -> get k kw = w -> (setting kw k v <-> v = w).
Proof. intros H E. unfold setting. rewrite E. split; [intros [[_ C]|[C _]]; [congruence|contradiction]|intros ->; left; auto]. Qed.
Lemma asked_ok d occs title kw : In "title" (map fst kw) -> In "save_fig" (map fst kw) -> In "show" (map fst kw) ->
  opt_value d (one ["--title"] "title" KText (VText title)) occs = Some (get "title" kw) -> opt_value d save_opt occs = Some (get "save_fig" kw) ->
  opt_value d (flag ["--show"] ["--noshow"] "show" true) occs = Some (get "show" kw) -> as_asked occs title (figure_calls kw).
Proof.
  intros I1 I2 I3 E1 E2 E3. split.
  - intros t Ht v. rewrite C84_calls by discriminate. cbn [asked]. rewrite (v_text d occs _ "title" _ _ Ht) in E1. injection E1 as E1. apply setting_in; [exact I1|congruence].
  - intros p. split.
    + intros (dpi & t & H). apply C84_calls in H; [|discriminate]. destruct H as (H & _). apply (setting_in _ _ _ _ I2 eq_refl) in H. rewrite <- H in E2. apply opt_value_delivers in E2.
      destruct E2 as [[_ C]|(f & vs & Hg & t0 & -> & Hr)]; [discriminate C|]. cbn [reads o_kind save_opt one] in Hr. injection Hr as <-. exists f. exact Hg.
    + intros (f & Hf). assert (chosen occs ["-o"; "--save_fig"] (some_of as_is) None (Some p)) as C by (left; exists f, p; split; [exact Hf|exists p; split; reflexivity]).
      pose proof (v_some_text d occs _ "save_fig" _ _ C) as E. unfold save_opt in E2. cbn [vopt] in E. rewrite E in E2. injection E2 as E2.
      assert (forall k, is_option k -> exists v, setting kw k v) as K.
      { intros k (v & Hv). destruct (in_dec string_dec k (map fst kw)) as [HI|HN]; [exists (get k kw); left; auto|exists v; right; auto]. }
      destruct (K "dpi") as (dpi & Hd); [opt|]. destruct (K "transparent") as (t & Ht); [opt|]. exists dpi, t. apply C84_calls; [discriminate|]. cbn [asked].
      split; [apply (setting_in _ _ _ _ I2 eq_refl); exact E2|]. split; [discriminate|]. split; assumption.
  - intros Hn v dpi t H. apply C84_calls in H; [|discriminate]. destruct H as (H & Hv & _). apply (setting_in _ _ _ _ I2 eq_refl) in H.
    assert (chosen occs ["-o"; "--save_fig"] (some_of as_is) None None) as C by (right; auto). pose proof (v_some_text d occs _ "save_fig" _ _ C) as E. unfold save_opt in E2. cbn [vopt] in E. rewrite E in E2. congruence.
  - intros b Hb. rewrite C84_calls by discriminate. cbn [asked]. rewrite (value_flag d occs _ _ "show" _ _ Hb) in E3. injection E3 as E3. unfold on. split.
    + intros (v & Hv & T). apply (setting_in _ _ _ _ I3 eq_refl) in Hv. subst v. rewrite <- E3 in T. exact T.
    + intros ->. exists (VBool true). split; [apply (setting_in _ _ _ _ I3 eq_refl); exact E3|reflexivity].
Qed.

(** ** Arrows *)
(** No size of the figure is given, or two numbers. *)
Definition sensible_size (occs : list (string * list string)) : Prop :=
  not_given occs ["--dims"] \/ exists f v w a b, given occs ["--dims"] f [v; w] /\ number_text v a /\ number_text w b.
Definition dims_opt : opt := two ["--dims"] "dims" KOptFloat VNone.
Lemma dims_ok d occs v : sensible_size occs -> opt_value d dims_opt occs = Some v -> v = VNone \/ exists w h, v = VTuple [VNum (Fin w); VNum (Fin h)].
Proof.
  intros [H | (f & s & t & a & b & Hg & Ha & Hb)] E.
  - left. apply opt_value_delivers in E. destruct E as [[_ ->]|(f & vs & Hg & _)]; [reflexivity|]. exfalso. destruct Hg as (Hin & before & after & -> & _). apply (H (f, vs)); [apply in_or_app; right; left; reflexivity|exact Hin].
  - right. exists a, b. unfold opt_value in E.
    rewrite (proj2 (last_occ_some dims_opt occs f [s; t])) in E by exact Hg. cbn [o_nargs o_kind dims_opt two option_mapM fold_right] in E.
    assert (convert d KOptFloat s = Some (VNum (Fin a))) as E1 by exact (cv_opt_num d s (Some a) (or_introl (ex_intro _ a (conj Ha eq_refl)))).
    assert (convert d KOptFloat t = Some (VNum (Fin b))) as E2 by exact (cv_opt_num d t (Some b) (or_introl (ex_intro _ b (conj Hb eq_refl)))).
    rewrite E1, E2 in E. cbn [option_map] in E. congruence.
Qed.
Definition colours : list string := ["M"; "N"; "T"; "U"; "V"; "None"; "flow"; "visc"; "radial"; "evaporation"].
Ltac in_opts := cbn [c_opts view_flow_cmd view_height_cmd view_contour_cmd bar_opts figure_opts lim_opts label_opts app In]; tauto.
(** 'strata view flow': every file has its figure, in order, with an arrow for every bin which has one and with the colours which are asked for. *)
Theorem C89_flow lib fuel dashed d argv occs files cutoff colour xlim ylim sels :
  accepted d view_flow_cmd argv -> writes (takes (flatten view_flow_cmd)) argv occs files ->
  chosen occs ["-co"; "--cutoff"] (some_of number_text) None cutoff -> chosen occs ["-cl"; "--colour_label"] (one_of colours) "T" colour ->
  switched occs ["--streamlines"] ["--nostreamlines"] false false -> chosen2 occs ["--xlim"] number_or_none (None, None) xlim -> chosen2 occs ["--ylim"] number_or_none (None, None) ylim ->
  sensible_size occs ->
  Forall2 (pictured fuel d (Some "M") cutoff (Some colour) xlim ylim) files sels -> (forall s, In s sels -> lib_ok lib s) ->
  exists calls, arrows_drawn lib fuel dashed d ("view" :: "flow" :: argv) = Some (map (fun s => (Some s, calls)) sels, None) /\ as_asked occs "Droplet height map" calls.
Proof.
  intros Hacc Hw Hco Hcl Hst Hx Hy Hsz HF Hl.
  destruct (view_call dashed d ["view"; "flow"] view_flow_cmd ["cutoff_label"] "view_flowfields" argv occs files) as (kw & E & Hv & HK); [destruct dashed; cbn [commands In]; tauto|reflexivity|exact Hacc|exact Hw|].
  change (["view"; "flow"] ++ argv) with ("view" :: "flow" :: argv) in E.
  change (body_of "view_flowfields" view_flow_cmd [VTuple (map VText files)] kw) with (ACall "view_flowfields" (spread_args [VTuple (map VText files)]) (set "cutoff_label" (VText "M") kw) Ignore) in E.
  rewrite spread_texts in E. unfold arrows_drawn. rewrite E. change (String.eqb "view_flowfields" "view_flowfields") with true. cbv iota.
  set (kw1 := set "cutoff_label" (VText "M") kw).
  assert (forall k, In k (map o_key (c_opts view_flow_cmd)) -> In k (map fst kw1)) as HI by (intros k Hk; apply keys_set; left; rewrite HK; exact Hk).
  assert (forall k, k <> "cutoff_label" -> get k kw1 = get k kw) as HG by (intros k Hk; apply get_set; exact Hk).
  assert (get "cutoff" kw1 = vopt vnum cutoff) as E1.
  { rewrite HG by discriminate. assert (Some (get "cutoff" kw) = Some (vopt vnum cutoff)) as H; [|injection H as H; exact H]. rewrite <- (v_some_num d occs _ "cutoff" _ _ Hco). symmetry. apply (Hv (one ["-co"; "--cutoff"] "cutoff" KFloat VNone)). in_opts. }
  assert (get "colour" kw1 = VText colour) as E2.
  { rewrite HG by discriminate. assert (Some (get "colour" kw) = Some (VText colour)) as H; [|injection H as H; exact H]. rewrite <- (v_choice d occs _ _ "colour" _ _ Hcl). symmetry. apply (Hv (one ["-cl"; "--colour_label"] "colour" (KChoice colours) (VText "T"))). in_opts. }
  assert (get "streamlines" kw1 = VBool false) as E3.
  { rewrite HG by discriminate. assert (Some (get "streamlines" kw) = Some (VBool false)) as H; [|injection H as H; exact H]. rewrite <- (value_flag d occs _ _ "streamlines" _ _ Hst). symmetry. apply (Hv (flag ["--streamlines"] ["--nostreamlines"] "streamlines" false)). in_opts. }
  assert (forall k l, k <> "cutoff_label" -> ~ In k flow_params -> chosen2 occs [("--" ++ k)%string] number_or_none (None, None) l -> In (two [("--" ++ k)%string] k KOptFloat nones) (c_opts view_flow_cmd) -> limits (without flow_params kw1) k l) as HL.
  { intros k l N1 N2 Hl' Ho. left. split; [apply keys_without; split; [apply HI, (in_map o_key _ _ Ho)|exact N2]|]. rewrite get_without, HG by assumption.
    specialize (Hv _ Ho). cbn [o_key two] in Hv. pose proof (v_opt_nums d occs _ k _ _ Hl') as Q. cbn [fst snd vopt] in Q. change (VTuple [VNone; VNone]) with nones in Q. rewrite Q in Hv. injection Hv as Hv. rewrite <- Hv. destruct l as [[a|] [b|]]; reflexivity. }
  assert (limits (without flow_params kw1) "xlim" xlim) as LX by (apply HL; [discriminate|cbn; intuition discriminate|exact Hx|in_opts]).
  assert (limits (without flow_params kw1) "ylim" ylim) as LY by (apply HL; [discriminate|cbn; intuition discriminate|exact Hy|in_opts]).
  assert (sized (without flow_params kw1)) as LS.
  { right. rewrite get_without by (cbn; intuition discriminate). rewrite HG by discriminate. apply (dims_ok d occs); [exact Hsz|]. apply (Hv dims_opt). in_opts. }
  exists (figure_calls (with_axis (without flow_params kw1))). split.
  - unfold call_flowfields. rewrite file_names_texts.
    rewrite (get_or_in "cutoff_label") by (apply keys_set; right; reflexivity). rewrite (get_or_in "cutoff"), (get_or_in "colour"), (get_or_in "streamlines") by (apply HI; cbn; tauto).
    change (get "cutoff_label" kw1) with (VText "M"). rewrite E1, E2, E3. cbn [maybe_text]. assert (maybe_number (vopt vnum cutoff) = Some cutoff) as -> by (destruct cutoff; reflexivity). cbn [truthy].
    f_equal. apply (C86_run lib fuel d (Some "M") cutoff (Some colour) (without flow_params kw1) xlim ylim); [intros l [= <-]; eexists; constructor|exact LX|exact LY|exact LS|exact HF|exact Hl].
  - assert (forall k, k <> "axis" -> k <> "cutoff_label" -> ~ In k flow_params -> In k (map o_key (c_opts view_flow_cmd)) -> In k (map fst (with_axis (without flow_params kw1))) /\ get k (with_axis (without flow_params kw1)) = get k kw) as HA.
    { intros k N1 N2 N3 Hk. unfold with_axis. destruct (default_other k "axis" (VText "scaled") (without flow_params kw1) N1) as [A1 A2]. split.
      - apply FigureProps.has_in. rewrite A1. apply FigureProps.has_in. apply keys_without. split; [apply HI; exact Hk|exact N3].
      - rewrite A2, get_without, HG by assumption. reflexivity. }
    destruct (HA "title") as [A1 B1]; [discriminate|discriminate|cbn; intuition discriminate|cbn; tauto|]. destruct (HA "save_fig") as [A2 B2]; [discriminate|discriminate|cbn; intuition discriminate|cbn; tauto|].
    destruct (HA "show") as [A3 B3]; [discriminate|discriminate|cbn; intuition discriminate|cbn; tauto|].
    apply (asked_ok d); try assumption; [rewrite B1; apply (Hv (one ["--title"] "title" KText (VText "Droplet height map")))|rewrite B2; apply (Hv save_opt)|rewrite B3; apply (Hv (flag ["--show"] ["--noshow"] "show" true))]; in_opts.
Qed.
Print Assumptions C89_flow.

(** ** Maps *)
Import MapRunProps(good, heights_right, contours_right, in_columns, with_defaults, levels_given, no_average).
Definition map_file := (string * (list bin * finfo * (Qc * Qc * Qc * Qc) * (nat * nat)))%type.
Lemma two_given d occs c kw k l : (forall o, In o (c_opts c) -> opt_value d o occs = Some (get (o_key o) kw)) -> chosen2 occs [("--" ++ k)%string] number_or_none (None, None) l ->
  In (two [("--" ++ k)%string] k KOptFloat nones) (c_opts c) -> get k kw = VTuple [limit (fst l); limit (snd l)].
Proof.
  intros Hv Hl Ho. specialize (Hv _ Ho). cbn [o_key two] in Hv. pose proof (v_opt_nums d occs _ k _ _ Hl) as Q. cbn [fst snd vopt] in Q. change (VTuple [VNone; VNone]) with nones in Q. rewrite Q in Hv.
  injection Hv as Hv. rewrite <- Hv. destruct l as [[a|] [b|]]; reflexivity.
Qed.
Lemma opt_get d occs c kw o v : (forall o, In o (c_opts c) -> opt_value d o occs = Some (get (o_key o) kw)) -> In o (c_opts c) -> opt_value d o occs = Some v -> get (o_key o) kw = v.
Proof. intros Hv Ho E. rewrite (Hv _ Ho) in E. injection E as E. exact E. Qed.
Definition height_labels : list string := ["M"; "N"; "T"; "U"; "V"; "flow"; "visc_diss"; "evaporation"].
Lemma height_known label : In label height_labels -> known_field label.
Proof. intros H. cbn in H. repeat (destruct H as [<- | H]; [first [left; eexists; constructor | right; cbn; tauto]|]). destruct H. Qed.
(** 'strata view height': every file has its figure, in order, with the value of every bin in the field which is asked for; the axes are drawn unless this is switched off. *)
Theorem C89_height lib fuel dashed d argv occs label vlim clim axes (maps : list map_file) :
  accepted d view_height_cmd argv -> writes (takes (flatten view_height_cmd)) argv occs (map fst maps) ->
  chosen occs ["-l"; "--label"] (one_of height_labels) "M" label -> chosen2 occs ["--vlim"] number_or_none (None, None) vlim -> chosen2 occs ["--clim"] number_or_none (None, None) clim ->
  not_given occs ["-co"; "--cutoff"] -> sensible_size occs -> switched occs ["--drawaxes"] ["--nodrawaxes"] true axes ->
  (forall fn b fi x0 y0 dx dy nx ny, In (fn, (b, fi, (x0, y0, dx, dy), (nx, ny))) maps -> good fuel d label fn b fi x0 y0 dx dy nx ny) -> (label = "visc_diss" -> (length maps <= 1)%nat) ->
  (forall c, lib_ok lib c) ->
  exists figs calls, maps_drawn lib fuel dashed d ("view" :: "height" :: argv) = Some (map (fun h => (Some (Heights h), calls)) figs, None) /\
    Forall2 (fun m h => let '(_, (b, fi, (x0, y0, dx, dy), (nx, ny))) := m in heights_right b fi label x0 y0 dx dy nx ny h) maps figs /\
    as_asked occs "Droplet height map" calls /\ (In AxisOff calls <-> axes = false).
Proof.
  intros Hacc Hw Hlb Hvl Hcl Hco Hsz Hax HM Hvd Hlib.
  destruct (view_call dashed d ["view"; "height"] view_height_cmd ["drawaxes"; "noaxis"; "type"] "view_flowmap_2d" argv occs (map fst maps)) as (kw & E & Hv & HK); [destruct dashed; cbn [commands In]; tauto|reflexivity|exact Hacc|exact Hw|].
  change (["view"; "height"] ++ argv) with ("view" :: "height" :: argv) in E.
  change (body_of "view_flowmap_2d" view_height_cmd [VTuple (map VText (map fst maps))] kw)
    with (ACall "view_flowmap_2d" (spread_args [VTuple (map VText (map fst maps))]) (set "type" (VText "height") (set "noaxis" (VBool (negb (truthy (get "drawaxes" kw)))) (del "drawaxes" kw))) Ignore) in E.
  rewrite spread_texts in E. unfold maps_drawn. rewrite E. change (String.eqb "view_flowmap_2d" "view_flowmap_2d") with true. cbv iota. clear E.
  set (kw1 := set "type" _ _).
  assert (forall k, ~ In k ["type"; "noaxis"; "drawaxes"] -> get k kw1 = get k kw) as HG.
  { intros k Hk. unfold kw1. rewrite !get_set, get_del; [reflexivity|..]; intros ->; apply Hk; cbn; tauto. }
  assert (forall k, k <> "drawaxes" -> In k (map o_key (c_opts view_height_cmd)) -> In k (map fst kw1)) as HI.
  { intros k N Hk. unfold kw1. apply keys_set. left. apply keys_set. left. apply keys_del. split; [rewrite HK; exact Hk|exact N]. }
  assert (forall k, ~ In k (map o_key (c_opts view_height_cmd)) -> k <> "type" -> ~ In k (map fst kw1)) as HO.
  { intros k Hk N C. unfold kw1 in C. apply keys_set in C. destruct C as [C|C]; [|contradiction]. apply keys_set in C. destruct C as [C| ->]; [apply keys_del in C; rewrite HK in C; tauto|apply Hk; cbn; tauto]. }
  set (kw2 := without map_params kw1).
  assert (get "label" kw1 = VText label) as E1.
  { rewrite HG by (cbn; intuition discriminate). apply (opt_get d occs view_height_cmd kw (one ["-l"; "--label"] "label" (KChoice height_labels) (VText "M"))); [exact Hv|in_opts|exact (v_choice d occs _ _ "label" _ _ Hlb)]. }
  assert (get "cutoff" kw1 = VNone) as E2.
  { rewrite HG by (cbn; intuition discriminate). apply (opt_get d occs view_height_cmd kw (one ["-co"; "--cutoff"] "cutoff" KFloat VNone)); [exact Hv|in_opts|].
    exact (v_some_num d occs _ "cutoff" None None (or_intror (conj Hco eq_refl))). }
  assert (exists clabel, maybe_text (get "cutoff_label" kw1) = Some clabel) as (clabel & E3).
  { rewrite HG by (cbn; intuition discriminate).
    assert (delivers d occs (one ["-cl"; "--cutoff_label"] "cutoff_label" (KChoice ["M"; "N"; "T"; "U"; "V"; "None"; "flow"; "visc"]) VNone) (get "cutoff_label" kw)) as D
      by (apply opt_value_delivers, (Hv (one ["-cl"; "--cutoff_label"] "cutoff_label" (KChoice ["M"; "N"; "T"; "U"; "V"; "None"; "flow"; "visc"]) VNone)); in_opts).
    destruct D as [[_ ->]|(f & vs & _ & t & _ & Hr)]; [eexists; reflexivity|]. cbn [reads o_kind one] in Hr. destruct Hr as [_ ->]. eexists; reflexivity. }
  assert (forall k, ~ In k ["type"; "noaxis"; "drawaxes"] -> ~ In k map_params -> In k (map o_key (c_opts view_height_cmd)) -> In k (map fst kw2) /\ get k kw2 = get k kw) as H2.
  { intros k N1 N2 Hk. split; [apply keys_without; split; [apply HI; [intros ->; apply N1; cbn; tauto|exact Hk]|exact N2]|]. unfold kw2. rewrite get_without, HG by assumption. reflexivity. }
  assert (MapRunProps.given kw2 "vlim" vlim) as LV.
  { destruct (H2 "vlim") as [A B]; [cbn; intuition discriminate|cbn; intuition discriminate|cbn; tauto|]. split; [exact A|]. rewrite B. apply (two_given d occs view_height_cmd); [exact Hv|exact Hvl|in_opts]. }
  assert (MapRunProps.given kw2 "clim" clim) as LC.
  { destruct (H2 "clim") as [A B]; [cbn; intuition discriminate|cbn; intuition discriminate|cbn; tauto|]. split; [exact A|]. rewrite B. apply (two_given d occs view_height_cmd); [exact Hv|exact Hcl|in_opts]. }
  assert (sized kw2) as LS.
  { right. destruct (H2 "dims") as [_ B]; [cbn; intuition discriminate|cbn; intuition discriminate|cbn; tauto|]. rewrite B. apply (dims_ok d occs); [exact Hsz|]. apply (Hv dims_opt). in_opts. }
  assert (no_average kw2) as LA.
  { left. intros C. apply keys_without in C. destruct C as [C _]. revert C. apply HO; [cbn; intuition discriminate|discriminate]. }
  assert (In label height_labels) as HLb by (destruct Hlb as [(f & v & _ & Hin & ->)|[_ ->]]; [exact Hin|cbn; tauto]).
  destruct (MapRunProps.C87_heights lib fuel d label clabel kw2 vlim Hlib (height_known _ HLb) LV LS LA clim maps LC HM Hvd) as (figs & EF & HF).
  exists figs, (figure_calls (with_defaults kw2)). split; [|split; [exact HF|split]].
  - unfold call_flowmap. rewrite file_names_texts. rewrite (get_or_in "type") by (apply keys_set; right; reflexivity). rewrite (get_or_in "label"), (get_or_in "cutoff_label"), (get_or_in "cutoff") by (apply HI; [discriminate|cbn; tauto]).
    change (get "type" kw1) with (VText "height"). rewrite E1, E2, E3. cbn [maybe_text maybe_number]. f_equal. exact EF.
  - assert (forall k, ~ In k ["type"; "noaxis"; "drawaxes"] -> ~ In k map_params -> ~ In k MapRunProps.defaults_keys -> In k (map o_key (c_opts view_height_cmd)) -> In k (map fst (with_defaults kw2)) /\ get k (with_defaults kw2) = get k kw) as HA.
    { intros k N1 N2 N3 Hk. destruct (MapRunProps.defaults_other k kw2 N3) as [A1 A2]. destruct (H2 k N1 N2 Hk) as [B1 B2]. rewrite A2, B2. split; [|reflexivity]. apply FigureProps.has_in. rewrite A1. apply FigureProps.has_in. exact B1. }
    destruct (HA "title") as [A1 B1]; [cbn; intuition discriminate|cbn; intuition discriminate|cbn; intuition discriminate|cbn; tauto|]. destruct (HA "save_fig") as [A2 B2]; [cbn; intuition discriminate|cbn; intuition discriminate|cbn; intuition discriminate|cbn; tauto|].
    destruct (HA "show") as [A3 B3]; [cbn; intuition discriminate|cbn; intuition discriminate|cbn; intuition discriminate|cbn; tauto|].
    apply (asked_ok d); try assumption; [rewrite B1; apply (Hv (one ["--title"] "title" KText (VText "Droplet height map")))|rewrite B2; apply (Hv save_opt)|rewrite B3; apply (Hv (flag ["--show"] ["--noshow"] "show" true))]; in_opts.
  - assert (get "drawaxes" kw = VBool axes) as EA.
    { apply (opt_get d occs view_height_cmd kw (flag ["--drawaxes"] ["--nodrawaxes"] "drawaxes" true)); [exact Hv|in_opts|exact (value_flag d occs _ _ "drawaxes" _ _ Hax)]. }
    assert (In "noaxis" (map fst kw2)) as A1 by (apply keys_without; split; [apply HI; [discriminate|cbn; tauto]|cbn; intuition discriminate]).
    assert (get "noaxis" kw2 = VBool (negb axes)) as A2.
    { unfold kw2. rewrite get_without by (cbn; intuition discriminate). unfold kw1. rewrite get_set by discriminate. rewrite get_set_same, EA. reflexivity. }
    assert (Click.has "noaxis" (with_defaults kw2) = true /\ get "noaxis" (with_defaults kw2) = VBool (negb axes)) as [B1 B2].
    { unfold with_defaults. destruct (default_other "noaxis" "coord_labels" (VTuple [VText "X"; VText "Y"]) (set_default "noaxis" (VBool true) (set_default "axis" (VText "scaled") kw2))) as [C1 C2]; [discriminate|].
      rewrite C1, C2. destruct (default_other "noaxis" "axis" (VText "scaled") kw2) as [D1 D2]; [discriminate|]. apply FigureProps.has_in in A1.
      unfold set_default at 1 3. rewrite D1, A1. rewrite D1, D2, A1, A2. auto. }
    rewrite C84_calls by discriminate. cbn [asked]. unfold on. apply FigureProps.has_in in B1. split.
    + intros (v & Hv' & T). apply (setting_in _ _ _ _ B1 eq_refl) in Hv'. subst v. rewrite B2 in T. destruct axes; [discriminate|reflexivity].
    + intros ->. exists (VBool true). split; [apply (setting_in _ _ _ _ B1 eq_refl); symmetry; exact B2|reflexivity].
Qed.
Print Assumptions C89_height.
(** 'strata view contour': as for heights, if the bins of the files are in columns; the values are limited by '--vlim' unless levels are given. *)
Definition contour_labels : list string := ["M"; "N"; "T"; "U"; "V"; "flow"].
Definition levels_opt : opt := one ["-lv"; "--levels"] "contour_levels" KFloats VNone.
Theorem C89_contour lib fuel dashed d argv occs label vlim levels (maps : list map_file) :
  accepted d view_contour_cmd argv -> writes (takes (flatten view_contour_cmd)) argv occs (map fst maps) ->
  chosen occs ["-l"; "--label"] (one_of contour_labels) "M" label -> chosen2 occs ["--vlim"] number_or_none (None, None) vlim ->
  (levels = true -> exists f t, given occs ["-lv"; "--levels"] f [t]) -> (levels = false -> not_given occs ["-lv"; "--levels"]) -> sensible_size occs ->
  (forall fn b fi x0 y0 dx dy nx ny, In (fn, (b, fi, (x0, y0, dx, dy), (nx, ny))) maps -> good fuel d label fn b fi x0 y0 dx dy nx ny /\ in_columns b x0 y0 dx dy nx ny) ->
  (forall c, lib_ok lib c) ->
  exists figs calls, maps_drawn lib fuel dashed d ("view" :: "contour" :: argv) = Some (map (fun c => (Some (Contours c), calls)) figs, None) /\
    Forall2 (fun m c => let '(_, (b, fi, (x0, y0, dx, dy), (nx, ny))) := m in contours_right b fi label vlim levels x0 y0 dx dy nx ny c) maps figs /\
    as_asked occs "Droplet contours" calls.
Proof.
  intros Hacc Hw Hlb Hvl Hlt Hlf Hsz HM Hlib.
  destruct (view_call dashed d ["view"; "contour"] view_contour_cmd ["type"] "view_flowmap_2d" argv occs (map fst maps)) as (kw & E & Hv & HK); [destruct dashed; cbn [commands In]; tauto|reflexivity|exact Hacc|exact Hw|].
  change (["view"; "contour"] ++ argv) with ("view" :: "contour" :: argv) in E.
  change (body_of "view_flowmap_2d" view_contour_cmd [VTuple (map VText (map fst maps))] kw) with (ACall "view_flowmap_2d" (spread_args [VTuple (map VText (map fst maps))]) (set "type" (VText "contour") kw) Ignore) in E.
  rewrite spread_texts in E. unfold maps_drawn. rewrite E. change (String.eqb "view_flowmap_2d" "view_flowmap_2d") with true. cbv iota. clear E.
  set (kw1 := set "type" _ _).
  assert (forall k, k <> "type" -> get k kw1 = get k kw) as HG by (intros k Hk; apply get_set; exact Hk).
  assert (forall k, In k (map o_key (c_opts view_contour_cmd)) -> In k (map fst kw1)) as HI by (intros k Hk; apply keys_set; left; rewrite HK; exact Hk).
  assert (forall k, ~ In k (map o_key (c_opts view_contour_cmd)) -> k <> "type" -> ~ In k (map fst kw1)) as HO by (intros k Hk N C; apply keys_set in C; rewrite HK in C; tauto).
  set (kw2 := without map_params kw1).
  assert (get "label" kw1 = VText label) as E1.
  { rewrite HG by discriminate. apply (opt_get d occs view_contour_cmd kw (one ["-l"; "--label"] "label" (KChoice contour_labels) (VText "M"))); [exact Hv|in_opts|exact (v_choice d occs _ _ "label" _ _ Hlb)]. }
  assert (forall k, k <> "type" -> ~ In k map_params -> In k (map o_key (c_opts view_contour_cmd)) -> In k (map fst kw2) /\ get k kw2 = get k kw) as H2.
  { intros k N1 N2 Hk. split; [apply keys_without; split; [apply HI; exact Hk|exact N2]|]. unfold kw2. rewrite get_without, HG by assumption. reflexivity. }
  assert (MapRunProps.given kw2 "vlim" vlim) as LV.
  { destruct (H2 "vlim") as [A B]; [discriminate|cbn; intuition discriminate|cbn; tauto|]. split; [exact A|]. rewrite B. apply (two_given d occs view_contour_cmd); [exact Hv|exact Hvl|in_opts]. }
  assert (sized kw2) as LS.
  { right. destruct (H2 "dims") as [_ B]; [discriminate|cbn; intuition discriminate|cbn; tauto|]. rewrite B. apply (dims_ok d occs); [exact Hsz|]. apply (Hv dims_opt). in_opts. }
  assert (no_average kw2) as LA.
  { left. intros C. apply keys_without in C. destruct C as [C _]. revert C. apply HO; [cbn; intuition discriminate|discriminate]. }
  assert (levels_given kw2 = levels) as LL.
  { destruct (H2 "contour_levels") as [A B]; [discriminate|cbn; intuition discriminate|cbn; tauto|]. unfold levels_given. rewrite get_or_in, B by exact A.
    assert (delivers d occs levels_opt (get "contour_levels" kw)) as D by (apply opt_value_delivers, (Hv levels_opt); in_opts).
    destruct levels.
    - destruct (Hlt eq_refl) as (f & t & Hin & before & after & -> & Hno). destruct D as [[Hn _]|(f' & vs & _ & t' & _ & Hr)].
      + exfalso. apply (Hn (f, [t])); [apply in_or_app; right; left; reflexivity|exact Hin].
      + cbn [reads o_kind levels_opt one] in Hr. destruct Hr as (ws & xs & _ & _ & ->). reflexivity.
    - specialize (Hlf eq_refl). destruct D as [[_ ->]|(f & vs & (Hin & before & after & -> & _) & _)]; [reflexivity|]. exfalso. apply (Hlf (f, vs)); [apply in_or_app; right; left; reflexivity|exact Hin]. }
  assert (In label contour_labels) as HLb by (destruct Hlb as [(f & v & _ & Hin & ->)|[_ ->]]; [exact Hin|cbn; tauto]).
  assert (label = "flow" \/ exists f, named label f) as HLc by (cbn in HLb; repeat (destruct HLb as [<- | HLb]; [first [left; reflexivity | right; eexists; constructor]|]); destruct HLb).
  assert (known_field label) as HLk by (destruct HLc as [-> | H]; [right; cbn; tauto|left; exact H]).
  destruct (MapRunProps.C87_contours lib fuel d label (Some "M") kw2 vlim Hlib HLk LV LS LA maps HLc HM) as (figs & EF & HF). rewrite LL in HF.
  exists figs, (figure_calls (with_defaults kw2)). split; [|split; [exact HF|]].
  - unfold call_flowmap. rewrite file_names_texts. rewrite (get_or_in "type") by (apply keys_set; right; reflexivity). rewrite (get_or_in "label") by (apply HI; cbn; tauto).
    rewrite (get_or_out "cutoff_label"), (get_or_out "cutoff") by (apply HO; [cbn; intuition discriminate|discriminate]).
    change (get "type" kw1) with (VText "contour"). rewrite E1. cbn [maybe_text maybe_number]. f_equal. exact EF.
  - assert (forall k, k <> "type" -> ~ In k map_params -> ~ In k MapRunProps.defaults_keys -> In k (map o_key (c_opts view_contour_cmd)) -> In k (map fst (with_defaults kw2)) /\ get k (with_defaults kw2) = get k kw) as HA.
    { intros k N1 N2 N3 Hk. destruct (MapRunProps.defaults_other k kw2 N3) as [A1 A2]. destruct (H2 k N1 N2 Hk) as [B1 B2]. rewrite A2, B2. split; [|reflexivity]. apply FigureProps.has_in. rewrite A1. apply FigureProps.has_in. exact B1. }
    destruct (HA "title") as [A1 B1]; [discriminate|cbn; intuition discriminate|cbn; intuition discriminate|cbn; tauto|]. destruct (HA "save_fig") as [A2 B2]; [discriminate|cbn; intuition discriminate|cbn; intuition discriminate|cbn; tauto|].
    destruct (HA "show") as [A3 B3]; [discriminate|cbn; intuition discriminate|cbn; intuition discriminate|cbn; tauto|].
    apply (asked_ok d); try assumption; [rewrite B1; apply (Hv (one ["--title"] "title" KText (VText "Droplet contours")))|rewrite B2; apply (Hv save_opt)|rewrite B3; apply (Hv (flag ["--show"] ["--noshow"] "show" true))]; in_opts.
Qed.
Print Assumptions C89_contour.

(** ** Calls from Python without options *)
(** Arrows are colored alike, in scaled axes, and a cutoff is one of the mass. *)
Theorem C86_defaults lib fuel d cutoff files sels : Forall2 (pictured fuel d (Some "M") (Some cutoff) None (None, None) (None, None)) files sels -> (forall s, In s sels -> lib_ok lib s) ->
  call_flowfields lib fuel d (map VText files) [("cutoff", VNum (Fin cutoff))] = Some (map (fun s => (Some s, figure_calls [("axis", VText "scaled")])) sels, None).
Proof.
  intros HF Hl. unfold call_flowfields. rewrite file_names_texts.
  change (get_or "cutoff_label" (VText "M") [("cutoff", VNum (Fin cutoff))]) with (VText "M"). change (get_or "cutoff" VNone [("cutoff", VNum (Fin cutoff))]) with (VNum (Fin cutoff)).
  change (get_or "colour" VNone [("cutoff", VNum (Fin cutoff))]) with VNone. change (truthy (get_or "streamlines" (VBool false) [("cutoff", VNum (Fin cutoff))])) with false.
  change (without flow_params [("cutoff", VNum (Fin cutoff))]) with (@nil (string * val)). cbn [maybe_text maybe_number]. f_equal.
  apply (C86_run lib fuel d (Some "M") (Some cutoff) None [] (None, None) (None, None)); [intros l [= <-]; eexists; constructor|right; split; [intros []|reflexivity]|right; split; [intros []|reflexivity]|left; intros []|exact HF|exact Hl].
Qed.
Print Assumptions C86_defaults.
(** Without the type of the map, view_flowmap_2d always raises TypeError. *)
Theorem C87_default_type_refuted lib fuel d files : call_flowmap lib fuel d (map VText files) [] = Some ([], Some TypeErr).
Proof. unfold call_flowmap. rewrite file_names_texts. reflexivity. Qed.
Print Assumptions C87_default_type_refuted.

(** ** Refuted: stream lines *)
(** 'strata view flow --streamlines' without a cutoff draws nothing, and ends without an error. *)
Theorem C89_streamlines_refuted lib fuel dashed d argv occs fn files colour b fi out : accepted d view_flow_cmd argv -> writes (takes (flatten view_flow_cmd)) argv occs (fn :: files) ->
  switched occs ["--streamlines"] ["--nostreamlines"] false true -> not_given occs ["-co"; "--cutoff"] -> chosen occs ["-cl"; "--colour_label"] (one_of colours) "T" colour ->
  InterfaceFiles.flow_file fuel (Average.content d fn) = Ok (b, fi) -> colour_data b fi (Some colour) = Ok out ->
  arrows_drawn lib fuel dashed d ("view" :: "flow" :: argv) = Some ([], None).
Proof.
  intros Hacc Hw Hst Hco Hcl ER EC.
  destruct (view_call dashed d ["view"; "flow"] view_flow_cmd ["cutoff_label"] "view_flowfields" argv occs (fn :: files)) as (kw & E & Hv & HK); [destruct dashed; cbn [commands In]; tauto|reflexivity|exact Hacc|exact Hw|].
  change (["view"; "flow"] ++ argv) with ("view" :: "flow" :: argv) in E.
  change (body_of "view_flowfields" view_flow_cmd [VTuple (map VText (fn :: files))] kw) with (ACall "view_flowfields" (spread_args [VTuple (map VText (fn :: files))]) (set "cutoff_label" (VText "M") kw) Ignore) in E.
  rewrite spread_texts in E. unfold arrows_drawn. rewrite E. change (String.eqb "view_flowfields" "view_flowfields") with true. cbv iota. clear E. set (kw1 := set "cutoff_label" (VText "M") kw).
  assert (forall k, In k (map o_key (c_opts view_flow_cmd)) -> In k (map fst kw1)) as HI by (intros k Hk; apply keys_set; left; rewrite HK; exact Hk).
  assert (forall k, k <> "cutoff_label" -> get k kw1 = get k kw) as HG by (intros k Hk; apply get_set; exact Hk).
  unfold call_flowfields. rewrite file_names_texts. rewrite (get_or_in "cutoff_label") by (apply keys_set; right; reflexivity). rewrite (get_or_in "cutoff"), (get_or_in "colour"), (get_or_in "streamlines") by (apply HI; cbn; tauto).
  rewrite (HG "cutoff"), (HG "colour"), (HG "streamlines") by discriminate. change (get "cutoff_label" kw1) with (VText "M").
  assert (get "cutoff" kw = VNone) as -> by (apply (opt_get d occs view_flow_cmd kw (one ["-co"; "--cutoff"] "cutoff" KFloat VNone)); [exact Hv|in_opts|exact (v_some_num d occs _ "cutoff" None None (or_intror (conj Hco eq_refl)))]).
  assert (get "colour" kw = VText colour) as -> by (apply (opt_get d occs view_flow_cmd kw (one ["-cl"; "--colour_label"] "colour" (KChoice colours) (VText "T"))); [exact Hv|in_opts|exact (v_choice d occs _ _ "colour" _ _ Hcl)]).
  assert (get "streamlines" kw = VBool true) as -> by (apply (opt_get d occs view_flow_cmd kw (flag ["--streamlines"] ["--nostreamlines"] "streamlines" false)); [exact Hv|in_opts|exact (value_flag d occs _ _ "streamlines" _ _ Hst)]).
  cbn [maybe_text maybe_number truthy]. f_equal. exact (C86_streamlines_refuted lib fuel d (Some "M") (Some colour) _ fn files b fi out ER EC).
Qed.
Print Assumptions C89_streamlines_refuted.

(** ** Concrete command lines, for the files of C86 *)
Definition ex_words : list string := ["a.dat"; "-co"; "3"; "-cl"; "M"; "b.dat"; "--xlim"; "none"; "2"; "--save_fig=a.png"; "--noshow"].
Definition ex_occs : list (string * list string) := [("-co", ["3"]); ("-cl", ["M"]); ("--xlim", ["none"; "2"]); ("--save_fig", ["a.png"]); ("--noshow", [])].
Ltac not_there := intros x Hx; cbn in Hx; repeat (destruct Hx as [<- | Hx]; [cbn; intuition discriminate|]); destruct Hx.
Ltac not_said := right; split; [not_there|reflexivity].
Lemma ex_number s q : py_float (txt s) = Some (Fin q) -> number_text s q.
Proof. intros H. apply py_float_iff. exact H. Qed.
Lemma ex_accepted : accepted ViewRunProps.ex_disk view_flow_cmd ex_words.
Proof.
  apply parse_accepted; [reflexivity|reflexivity|]. destruct (parse ViewRunProps.ex_disk view_flow_cmd ex_words) as [| |args kw] eqn:E; [exfalso|exfalso|eauto].
  - assert (match parse ViewRunProps.ex_disk view_flow_cmd ex_words with Parsed _ _ => true | _ => false end = true) as H by (vm_compute; reflexivity). rewrite E in H. discriminate.
  - assert (match parse ViewRunProps.ex_disk view_flow_cmd ex_words with Parsed _ _ => true | _ => false end = true) as H by (vm_compute; reflexivity). rewrite E in H. discriminate.
Qed.
Example C89_ex lib : (forall s, lib_ok lib s) ->
  exists calls, arrows_drawn lib 60 true ViewRunProps.ex_disk ("view" :: "flow" :: ex_words) =
    Some ([(Some (withM [fbin 0 0 1 2 4; fbin 1 0 3 4 6]), calls); (Some (withM [fbin 0 1 2 1 3; fbin 1 0 3 1 6; fbin 1 1 1 1 5]), calls)], None) /\
    In (Title (VText "Droplet height map")) calls /\ (exists dpi t, In (Save (VText "a.png") dpi t) calls) /\ ~ In Show calls.
Proof.
  intros Hl.
  destruct (C89_flow lib 60 true ViewRunProps.ex_disk ex_words ex_occs ["a.dat"; "b.dat"] (Some (ZQ 3)) "M" (None, Some (ZQ 2)) (None, None) [withM [fbin 0 0 1 2 4; fbin 1 0 3 4 6]; withM [fbin 0 1 2 1 3; fbin 1 0 3 1 6; fbin 1 1 1 1 5]]) as (calls & E & HA).
  - exact ex_accepted.
  - apply (writes_ext (arity view_flow_cmd)); [intros f; exact (arity_flatten view_flow_cmd f)|]. apply scan_writes; reflexivity.
  - left. exists "-co", "3". split; [split; [cbn; auto|exists [], (tl ex_occs); split; [reflexivity|not_there]]|]. exists (ZQ 3). split; [|reflexivity]. apply ex_number. vm_compute. reflexivity.
  - left. exists "-cl", "M". split; [split; [cbn; auto|exists [("-co", ["3"])], (tl (tl ex_occs)); split; [reflexivity|not_there]]|]. split; [cbn; auto|reflexivity].
  - not_said.
  - left. exists "--xlim", "none", "2". split; [split; [cbn; auto|exists [("-co", ["3"]); ("-cl", ["M"])], (tl (tl (tl ex_occs))); split; [reflexivity|not_there]]|]. split.
    + right. split; [|reflexivity]. apply CliP.is_none_iff. vm_compute. reflexivity.
    + left. exists (ZQ 2). split; [|reflexivity]. apply ex_number. vm_compute. reflexivity.
  - not_said.
  - left. not_there.
  - constructor; [|constructor; [|constructor]].
    + exists ex_first, ex_fi, (withM ex_first). split; [exact ex_first_read|]. split; [discriminate|]. split; [reflexivity|]. unfold withM, ex_first. cbn [map].
      apply sel_keep; [yes_drawn|apply sel_drop; [not_drawn|apply sel_keep; [yes_drawn|apply sel_drop; [not_drawn|apply sel_nil]]]].
    + exists ex_second, ex_fi, (withM ex_second). split; [exact ex_second_read|]. split; [discriminate|]. split; [reflexivity|]. unfold withM, ex_second. cbn [map].
      apply sel_drop; [not_drawn|apply sel_keep; [yes_drawn|apply sel_keep; [yes_drawn|apply sel_keep; [yes_drawn|apply sel_nil]]]].
  - intros s _. apply Hl.
  - exists calls. split; [exact E|]. destruct HA as [A1 A2 _ A4]. split; [|split].
    + apply (A1 "Droplet height map"); [not_said|reflexivity].
    + apply A2. exists "--save_fig". split; [cbn; auto|]. exists [("-co", ["3"]); ("-cl", ["M"]); ("--xlim", ["none"; "2"])], [("--noshow", [])]. split; [reflexivity|not_there].
    + rewrite (A4 false); [discriminate|]. left. exists "--noshow". split; [|cbn; intuition discriminate]. split; [cbn; auto|]. exists [("-co", ["3"]); ("-cl", ["M"]); ("--xlim", ["none"; "2"]); ("--save_fig", ["a.png"])], []. split; [reflexivity|not_there].
Qed.
Definition ex_map : list map_file := [("a.dat", (ex_first, ex_fi, (0, 0, 1, 1), (2, 2)%nat))].
Lemma ex_good label : In label ["M"; "flow"] -> good 60 ViewRunProps.ex_disk label "a.dat" ex_first ex_fi 0 0 1 1 2 2.
Proof.
  intros H. split; [split; [exact ex_first_read|reflexivity|reflexivity|exact ex_grid_first|lia]|]. cbn in H. destruct H as [<- | [<- | []]]; (split; [discriminate|cbn; intuition discriminate]).
Qed.
Ltac is_accepted := apply parse_accepted; [reflexivity|reflexivity|];
  match goal with |- exists args kw, ?p = _ => assert (match p with Parsed _ _ => true | _ => false end = true) as H by (vm_compute; reflexivity); destruct p; try discriminate H; eauto end.
(** The speed in the bin at (1, 0) is 5; the mass there is 6, in contours limited to 5. *)
Example C89_ex_height lib : (forall c, lib_ok lib c) ->
  exists h calls, maps_drawn lib 60 true ViewRunProps.ex_disk ["view"; "height"; "a.dat"; "-l"; "flow"; "--nodrawaxes"] = Some ([(Some (Heights h), calls)], None) /\
    speed (fbin 1 0 3 4 6) (h 1%nat 0%nat) /\ In AxisOff calls.
Proof.
  intros Hl.
  destruct (C89_height lib 60 true ViewRunProps.ex_disk ["a.dat"; "-l"; "flow"; "--nodrawaxes"] [("-l", ["flow"]); ("--nodrawaxes", [])] "flow" (None, None) (None, None) false ex_map) as (figs & calls & E & HF & _ & HX).
  - is_accepted.
  - apply (writes_ext (arity view_height_cmd)); [intros f; exact (arity_flatten view_height_cmd f)|]. apply scan_writes; reflexivity.
  - left. exists "-l", "flow". split; [split; [cbn; auto|exists [], [("--nodrawaxes", [])]; split; [reflexivity|not_there]]|]. split; [cbn; tauto|reflexivity].
  - not_said.
  - not_said.
  - not_there.
  - left. not_there.
  - left. exists "--nodrawaxes". split; [|cbn; intuition discriminate]. split; [cbn; auto|]. exists [("-l", ["flow"])], []. split; [reflexivity|not_there].
  - intros fn b fi x0 y0 dx dy nx ny [C|[]]; injection C as <- <- <- <- <- <- <- <- <-. apply ex_good. cbn; tauto.
  - discriminate.
  - exact Hl.
  - inversion HF as [|? h ? r H1 HF1]; subst. inversion HF1; subst. exists h, calls. split; [exact E|]. split; [|apply HX; reflexivity].
    apply (H1 1%nat 0%nat (fbin 1 0 3 4 6)); [lia|lia|cbn; tauto|apply Qc_is_canon; reflexivity|apply Qc_is_canon; reflexivity|reflexivity].
Qed.
Example C89_ex_contour lib : (forall c, lib_ok lib c) ->
  exists c calls, maps_drawn lib 60 true ViewRunProps.ex_disk ["view"; "contour"; "a.dat"; "--vlim"; "none"; "5"] = Some ([(Some (Contours c), calls)], None) /\ c 1%nat 0%nat = (1, 0, QR (ZQ 5)).
Proof.
  intros Hl.
  destruct (C89_contour lib 60 true ViewRunProps.ex_disk ["a.dat"; "--vlim"; "none"; "5"] [("--vlim", ["none"; "5"])] "M" (None, Some (ZQ 5)) false ex_map) as (figs & calls & E & HF & _).
  - is_accepted.
  - apply (writes_ext (arity view_contour_cmd)); [intros f; exact (arity_flatten view_contour_cmd f)|]. apply scan_writes; reflexivity.
  - not_said.
  - left. exists "--vlim", "none", "5". split; [split; [cbn; auto|exists [], []; split; [reflexivity|not_there]]|]. split.
    + right. split; [|reflexivity]. apply CliP.is_none_iff. vm_compute. reflexivity.
    + left. exists (ZQ 5). split; [|reflexivity]. apply ex_number. vm_compute. reflexivity.
  - discriminate.
  - intros _. not_there.
  - left. not_there.
  - intros fn b fi x0 y0 dx dy nx ny [C|[]]; injection C as <- <- <- <- <- <- <- <- <-. split; [apply ex_good; cbn; tauto|].
    intros i j Hi Hj. destruct i as [|[|i]]; [| |lia]; (destruct j as [|[|j]]; [| |lia]); split; apply Qc_is_canon; reflexivity.
  - exact Hl.
  - inversion HF as [|? c ? r H1 HF1]; subst. inversion HF1; subst. exists c, calls. split; [exact E|].
    destruct (H1 1%nat 0%nat) as [P1 P2]; [lia|lia|]. destruct (P2 (fbin 1 0 3 4 6)) as (v & (_ & _ & _ & _ & _ & Hv) & Hc); [cbn; tauto|apply Qc_is_canon; reflexivity|apply Qc_is_canon; reflexivity|].
    specialize (Hv bM (named_m)). cbn [bM fbin] in Hv. subst v. destruct Hc as (_ & _ & Hc). specialize (Hc (ZQ 5) eq_refl). rewrite (surjective_pairing (c 1%nat 0%nat)), P1. apply f_equal2; [apply f_equal2; apply Qc_is_canon; reflexivity|].
    apply Hc. apply QR_le. apply qle_true. vm_compute. reflexivity.
Qed.
