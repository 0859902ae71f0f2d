(** C79: how commands end.  And concrete command lines for C77 and C78. *)
From Coq Require Import String Ascii.
From Verif.Base Require Import QcX Res Np Bytes.
From Verif.Model Require Import Text PyText Click Cli.
From Verif.Spec Require Import CliSpec CliReads.
From Verif.Proofs Require Import TextP PyTextP ClickP CliP CliTextP.
From Verif.Props Require Import CliProps CliTextProps.
From Verif.Props Require InterfaceFilesProps FormatsProps.
From Verif.Model Require Utils Formats Average SpreadingFiles InterfaceFiles Collect SpreadingView.
Local Open Scope string_scope.
Local Open Scope list_scope.
Local Notation length := List.length.

(** ** C79 *)
(** An accepted command line calls the function of the command (for 'interface angle': if a fit or a height is asked for), and if the function does its
    work the program ends without an exception, with the files as the function left them.  Missing for the commands in [spoilt], see below. *)
Definition spoilt : list string := ["collect_interfaces"].
Theorem C79_ends_without_error_partial w dashed d words c touched fn argv : In (words, c, touched, fn) (commands dashed) -> accepted d c argv ->
  strata dashed d (words ++ argv) = ANothing \/
  exists args kw after, strata dashed d (words ++ argv) = ACall fn args kw after /\
    forall d' r, library w d fn args kw = Some (d', Ok r) -> ~ In fn spoilt -> exists printed, main w dashed d (words ++ argv) = Some (Done d' printed None).
Proof.
  intros H Hacc. destruct (proj2 (C77_accepted_iff dashed d words c touched fn argv H) Hacc) as [N1 N2]. unfold main.
  destruct (strata dashed d (words ++ argv)) as [| | |fn' args kw after] eqn:Es; [congruence|congruence|left; reflexivity|]. right. clear N1 N2.
  assert (fn' = fn /\ (after = UnpackTwo -> In fn spoilt \/ fn = "view_interfaces")) as [-> Ha].
  { destruct (commands_run dashed d words c touched fn argv H) as (E & _). rewrite E in Es. clear E Hacc. unfold Cli.run in Es. destruct (parse d c argv) as [| |args0 kw0]; [discriminate|discriminate|].
    destruct dashed; cbn [commands In] in H.
    all: repeat match type of H with False => destruct H | _ \/ _ => destruct H as [H | H]; [injection H as <- <- <- <-|] end.
    all: match type of Es with body_of ?n ?m _ _ = _ => let x := eval hnf in (body_of n m) in change (body_of n m) with x in Es end.
    all: unfold average_body, convert_body, sum_body, spreading_collect_body, spreading_view_body, spreading_fit_body, interface_angle_body, interface_collect_body,
      interface_view_body, interface_sample_body, contact_line_collect_body, view_height_body, view_contour_body, view_flow_body in Es; cbv zeta in Es.
    all: try match type of Es with (if ?b then _ else _) = _ => destruct b; [|discriminate] end.
    all: try match type of Es with match ?a with _ => _ end = _ => destruct a as [|? [|? [|]]]; try discriminate end.
    all: pose proof (f_equal (fun a => match a with ACall f _ _ _ => f | _ => ""%string end) Es) as E1; cbv beta iota in E1.
    all: pose proof (f_equal (fun a => match a with ACall _ _ _ p => p | _ => Ignore end) Es) as E2; cbv beta iota in E2; clear Es.
    all: split; [symmetry; exact E1|]. all: rewrite <- E2; cbn; try tauto.
    all: repeat match goal with |- (if ?b then _ else _) = _ -> _ => destruct b end; intros; try discriminate; auto. }
  exists args, kw, after. split; [reflexivity|]. intros d' r El Hn. rewrite El. cbn [option_map fst snd]. unfold finish.
  destruct r, after; try (eexists; reflexivity). exfalso. destruct (Ha eq_refl) as [Hs | ->]; [exact (Hn Hs)|]. discriminate El.
Qed.
Print Assumptions C79_ends_without_error_partial.
(** Only 'interface angle' may do nothing, and only if no fit and no height other than 0 is asked for. *)
Theorem C79_does_nothing dashed d words c touched fn argv t occs pos : In (words, c, touched, fn) (commands dashed) -> (forall f n, t f = Some n <-> spelling c f n) ->
  writes t argv occs pos -> strata dashed d (words ++ argv) = ANothing ->
  words = ["interface"; "angle"] /\ switched occs ["--fit"] ["--nofit"] false false /\
  (not_given occs ["-h"; "--height"] \/ exists f s, given occs ["-h"; "--height"] f [s] /\ (none_text s \/ number_text s 0)).
Proof.
  intros H Ht Hw Es. destruct (commands_run dashed d words c touched fn argv H) as (E & Hg & Hd & Hk). rewrite E in Es. unfold Cli.run in Es.
  destruct (parse d c argv) as [| |args0 kw0] eqn:Ep; [discriminate|discriminate|].
  assert (writes (takes (flatten c)) argv occs pos) as Hw'.
  { apply (writes_ext t (takes (flatten c)) _ _ _); [|exact Hw]. intros f. rewrite <- arity_flatten. destruct (t f) as [n|] eqn:E1.
    - apply Ht in E1. symmetry. apply arity_spelling; assumption.
    - destruct (arity c f) as [n|] eqn:E2; [|reflexivity]. apply arity_spelling in E2; [|exact Hd]. apply Ht in E2. congruence. }
  destruct (parse_values d c argv args0 kw0 occs pos Hg Hk Hw' Ep) as [Hv Ha].
  assert (c = interface_angle_cmd /\ words = ["interface"; "angle"] /\ (truthy (get "fit" kw0) || truthy (get "height" kw0))%bool = false) as (-> & -> & E0).
  { clear -H Es. destruct dashed; cbn [commands In] in H.
    all: repeat match type of H with False => destruct H | _ \/ _ => destruct H as [H | H]; [injection H as <- <- <- <-|] end.
    all: match type of Es with body_of ?n ?m _ _ = _ => let x := eval hnf in (body_of n m) in change (body_of n m) with x in Es end.
    all: unfold average_body, convert_body, sum_body, spreading_collect_body, spreading_view_body, spreading_fit_body, interface_angle_body, interface_collect_body,
      interface_view_body, interface_sample_body, contact_line_collect_body, view_height_body, view_contour_body, view_flow_body in Es; cbv zeta in Es; try discriminate.
    all: first [split; [reflexivity|split; [reflexivity|]]; destruct (truthy (get "fit" kw0) || truthy (get "height" kw0))%bool; [discriminate|reflexivity]
               |destruct args0 as [|? [|? [|]]]; discriminate]. }
  apply orb_false_iff in E0. destruct E0 as [Ef Eh].
  assert (forall o, In o (c_opts interface_angle_cmd) -> delivers d occs o (get (o_key o) kw0)) as Hdel by (intros o Ho; apply opt_value_delivers, Hv, Ho). clear Hv.
  split; [reflexivity|]. split.
  - pose proof (Hdel (flag ["--fit"] ["--nofit"] "fit" false)) as Ho. specialize (Ho ltac:(cbn; auto)). cbn [o_key flag] in Ho.
    destruct Ho as [[Hn _] | (f & vs & Hgv & b & Eb & Hb)]; [right; split; [exact Hn|reflexivity]|]. left. exists f.
    assert (vs = []) as ->.
    { destruct Hgv as (Hf & before & aft & Eo & _). pose proof (writes_lengths _ _ _ _ Hw' (f, vs)) as L. rewrite Eo in L. specialize (L (in_elt _ _ _)). cbn [fst snd] in L.
      cbn in Hf. destruct Hf as [<- | [<- | []]]; cbn in L; destruct vs; [reflexivity|discriminate|reflexivity|discriminate]. }
    split; [exact Hgv|]. rewrite Eb in Ef. cbn [truthy] in Ef. rewrite Ef in Hb. exact Hb.
  - pose proof (Hdel (one ["-h"; "--height"] "height" KOptFloat VNone)) as Ho. specialize (Ho ltac:(cbn; auto)). cbn [o_key one] in Ho.
    destruct Ho as [[Hn _] | (f & vs & Hgv & s & -> & Hs)]; [left; exact Hn|right]. exists f, s. split; [exact Hgv|].
    cbn [reads o_kind] in Hs. destruct Hs as [(x & Hx & Ex) | [Hs _]]; [right|left; exact Hs]. rewrite Ex in Eh. destruct x as [q| | |]; cbn [truthy] in Eh; try discriminate.
    apply negb_false_iff, qeq_true in Eh. subst q. exact Hx.
Qed.
Print Assumptions C79_does_nothing.
(** 'interface collect' never ends without an error, also when every file is written (C78_interface_collect says what is written). *)
Theorem C79_interface_collect_refuted w dashed d argv : accepted d interface_collect_cmd argv ->
  exists d' e, main w dashed d ("interface" :: "collect" :: argv) = Some (Done d' [] (Some e)).
Proof.
  intros Hacc. assert (In (["interface"; "collect"], interface_collect_cmd, ["recenter"], "collect_interfaces") (commands dashed)) as H by (destruct dashed; cbn; auto 20).
  apply (C77_accepted_iff dashed d _ _ _ _ argv H) in Hacc. destruct Hacc as [N1 N2]. unfold main.
  change (["interface"; "collect"] ++ argv) with ("interface" :: "collect" :: argv) in N1, N2.
  assert (strata dashed d ("interface" :: "collect" :: argv) = Cli.run d interface_collect_cmd interface_collect_body argv) as E by reflexivity.
  rewrite E in N1, N2 |- *. unfold Cli.run in *. destruct (parse d interface_collect_cmd argv) as [| |args kw]; [congruence|congruence|].
  unfold interface_collect_body. cbv zeta. unfold library.
  change (String.eqb "collect_interfaces" "average") with false. change (String.eqb "collect_interfaces" "convert") with false. change (String.eqb "collect_interfaces" "collect") with false.
  change (String.eqb "collect_interfaces" "view_spreading") with false. change (String.eqb "collect_interfaces" "collect_interfaces") with true. cbv iota.
  unfold call. destruct (collect_args _ _) as [[[[[[[[b o] cu] ra] bi] li] re] fo]|e]; [|cbn; eauto]. cbn [option_map fst snd plain].
  match goal with |- context [InterfaceFiles.collect_files ?a1 ?a2 ?a3 ?a4 ?a5 ?a6 ?a7 ?a8 ?a9 ?a10 ?a11 ?a12] =>
    destruct (InterfaceFiles.collect_files a1 a2 a3 a4 a5 a6 a7 a8 a9 a10 a11 a12) as [d' [err|]] end; cbn; eauto.
Qed.
Print Assumptions C79_interface_collect_refuted.
(** A height of 0, the lowest one, counts as none. *)
Theorem C79_angle_height_zero_refuted w dashed d : main w dashed d ["interface"; "angle"; "map_"; "--height"; "0"] = Some Nothing.
Proof. destruct dashed; reflexivity. Qed.
Print Assumptions C79_angle_height_zero_refuted.
(** '--combine' accepts 'none' for one of its values, but the function fails with a TypeError and does nothing. *)
Theorem C79_combine_one_none_refuted w dashed d : main w dashed d ["average"; "map_"; "avg_"; "2"; "--combine"; "2"; "none"] = Some (Done d [] (Some TypeErr)).
Proof. destruct dashed; reflexivity. Qed.
Print Assumptions C79_combine_one_none_refuted.
(** 'view height': '--noaxis' is overridden by '--drawaxes', whatever value it has. *)
Theorem C79_noaxis_refuted dashed d argv occs pos fn args kw after : writes (takes (flatten view_height_cmd)) argv occs pos ->
  strata dashed d ("view" :: "height" :: argv) = ACall fn args kw after ->
  exists b, switched occs ["--drawaxes"] ["--nodrawaxes"] true b /\ get "noaxis" kw = VBool (negb b).
Proof.
  intros Hw Hs. assert (In (["view"; "height"], view_height_cmd, ["drawaxes"; "noaxis"; "type"], "view_flowmap_2d") (commands dashed)) as H by (destruct dashed; cbn; auto 20).
  destruct (call_of dashed d ["view"; "height"] _ _ _ _ _ _ _ _ _ _ H Hw Hs) as (args0 & kw0 & E & Hv & Ha).
  change (body_of "view_flowmap_2d" view_height_cmd) with view_height_body in E. unfold view_height_body in E.
  pose proof (f_equal (fun a => match a with ACall _ _ k _ => k | _ => [] end) E) as E2. cbv beta iota in E2. subst kw. rewrite get_set by discriminate. rewrite get_set_same.
  pose proof (Hv (flag ["--drawaxes"] ["--nodrawaxes"] "drawaxes" true)) as Ho. assert (In (flag ["--drawaxes"] ["--nodrawaxes"] "drawaxes" true) (c_opts view_height_cmd)) as Hin by (cbn; auto 40).
  specialize (Ho Hin). cbn [o_key flag] in Ho. destruct Ho as [[Hn Ed] | (f & vs & Hg & b & Ht & Hb)].
  - exists true. split; [right; split; [exact Hn|reflexivity]|]. rewrite Ed. reflexivity.
  - exists b. assert (vs = []) as ->.
    { destruct Hg as (Hf & before & aft & Eo & _). pose proof (writes_lengths _ _ _ _ Hw (f, vs)) as L. rewrite Eo in L. specialize (L (in_elt _ _ _)). cbn [fst snd] in L.
      cbn in Hf. destruct Hf as [<- | [<- | []]]; cbn in L; destruct vs; [reflexivity|discriminate|reflexivity|discriminate]. }
    split; [left; exists f; split; [exact Hg|exact Hb]|]. rewrite Ht. reflexivity.
Qed.
Print Assumptions C79_noaxis_refuted.
(** With click 7 and later the commands 'strata contact_line ...' of the manual do not exist. *)
Theorem C79_contact_line_refuted w d rest : main w true d ("contact_line" :: rest) = Some Usage.
Proof.
  apply C77_unknown_command; [|cbn; intuition discriminate]. intros (c & s & E). discriminate.
Qed.
Print Assumptions C79_contact_line_refuted.

(** ** Concrete command lines *)
Definition no_files : Utils.disk := {| Utils.files := []; Utils.dirs := [] |}.
(** Options between the words, after '=', bundled, repeated. *)
Definition ex_argv : list string := ["-b"; "3"; "map_"; "--recenter=com"; "avg_"; "-b5"; "-co"; "1e-1"; "--"; "4"].
Definition ex_occs : list (string * list string) := [("-b", ["3"]); ("--recenter", ["com"]); ("-b", ["5"]); ("-co", ["1e-1"])].
Example C77_ex_writes : writes (takes average_options) ex_argv ex_occs ["map_"; "avg_"; "4"].
Proof.
  apply (writes_ext (arity average_cmd)); [intros f; exact (arity_flatten average_cmd f)|]. apply scan_writes; reflexivity.
Qed.
Example C77_ex_accepted : accepted no_files average_cmd ex_argv.
Proof. apply parse_accepted; [reflexivity|reflexivity|]. eexists _, _. reflexivity. Qed.
(** No group size, a text which is not a number, an unknown option, a missing file, a file which exists. *)
Example C77_ex_refused : ~ accepted no_files average_cmd ["map_"; "avg_"] /\ ~ accepted no_files average_cmd ["map_"; "avg_"; "0"] /\
  ~ accepted no_files average_cmd ["map_"; "avg_"; "2"; "--cutoff"; "1_"] /\ ~ accepted no_files convert_cmd ["a"; "b"; "--rolling"] /\
  ~ accepted no_files spreading_view_cmd ["spread.xvg"] /\ accepted {| Utils.files := [(Formats.os_path "spread.xvg", "")]; Utils.dirs := [] |} spreading_view_cmd ["spread.xvg"].
Proof.
  repeat split; try (intros H; apply parse_accepted in H; [|reflexivity|reflexivity]; destruct H as (? & ? & H); discriminate H).
  apply parse_accepted; [reflexivity|reflexivity|]. eexists _, _. reflexivity.
Qed.
Example C77_ex_read : number_text "1e-1" (Q2Qc (1 # 10)) /\ int_text " -1_0 " (-10) /\ float_text "-Infinity" NInf /\ none_text "None".
Proof.
  split; [|split; [|split]].
  - unfold number_text. replace (Fin (Q2Qc (1 # 10))) with (match py_float (txt "1e-1") with Some x => x | None => NaN end) by (vm_compute; f_equal; apply Qc_is_canon; reflexivity).
    apply py_float_iff. vm_compute. reflexivity.
  - apply py_int_iff. vm_compute. reflexivity.
  - apply py_float_iff. vm_compute. reflexivity.
  - unfold none_text, any_case. cbn [txt list_ascii_of_string]. repeat apply Forall2_cons; try apply Forall2_nil; try (left; reflexivity). right. split; [split; discriminate|reflexivity].
Qed.
(** The hypotheses of C78_average hold for it. *)
Example C78_ex_average w : exists r, main w true no_files ("average" :: ex_argv) = Some (Done (fst r) [] (snd r)) /\
  r = Average.average (w_ffuel w) (w_fuel w)
    {| Average.a_xlim := (None, None); Average.a_ylim := (None, None); Average.a_combine := None; Average.a_recenter := "com"; Average.a_super := None;
       Average.a_floor := None; Average.a_cutoff := Some (Q2Qc (1 # 10)); Average.a_bins := 1; Average.a_radius := ZQ 1; Average.a_longest := false |}
    false no_files "map_" "avg_" 4 false {| Utils.o_begin := Some 5%Z; Utils.o_end := Some Utils.Inf; Utils.o_ext := Some ".dat"; Utils.o_outext := None |}.
Proof.
  eexists. split; [|reflexivity].
  apply (C78_average w true no_files ex_argv ex_occs "map_" "avg_" "4" 4 "com" false (None, None) None None None None (Q2Qc (1 # 10)) 1 (ZQ 1) (None, None) (None, None) 5 None ".dat").
  all: try (right; split; [intros x Hx; cbn in Hx; repeat (destruct Hx as [<- | Hx]; [cbn; intuition discriminate|]); destruct Hx|reflexivity]).
  - exact C77_ex_writes.
  - intros x Hx. cbn in Hx. repeat (destruct Hx as [<- | Hx]; [cbn; intuition discriminate|]). destruct Hx.
  - split; [apply py_int_iff; vm_compute; reflexivity|lia].
  - left. exists "--recenter", "com". split; [split; [cbn; auto|]; exists [("-b", ["3"])], [("-b", ["5"]); ("-co", ["1e-1"])]; split; [reflexivity|]|split; [cbn; auto|reflexivity]].
    intros x Hx. cbn in Hx. repeat (destruct Hx as [<- | Hx]; [cbn; intuition discriminate|]). destruct Hx.
  - reflexivity.
  - reflexivity.
  - left. exists "-co", "1e-1". split; [split; [cbn; auto|]; exists [("-b", ["3"]); ("--recenter", ["com"]); ("-b", ["5"])], []; split; [reflexivity|intros x []]|apply C77_ex_read].
  - left. exists "-b", "5". split; [split; [cbn; auto|]; exists [("-b", ["3"]); ("--recenter", ["com"])], [("-co", ["1e-1"])]; split; [reflexivity|]|split; [apply py_int_iff; vm_compute; reflexivity|lia]].
    intros x Hx. cbn in Hx. repeat (destruct Hx as [<- | Hx]; [cbn; intuition discriminate|]). destruct Hx.
Qed.
(** Runs on disks with files. *)
Definition ex_world : world := mkWorld 10 60 InterfaceFilesProps.ex_env (fun _ => txt "'/home/user/map_'") (fun _ => txt "?") (fun _ => []).
Definition outcome_of (o : option outcome) : option (list string * list string * option exn) :=
  match o with Some (Done d p e) => Some (map (fun f => snd (fst f)) (Utils.files d), map str p, e) | _ => None end.
Example C78_ex_interface_collect : outcome_of (main ex_world true InterfaceFilesProps.ex_disk ["interface"; "collect"; "-co"; "4"; "map_"; "out_"]) =
  Some (["out_00002.xvg"; "out_00001.xvg"; "map_00001.dat"; "map_00002.dat"], [], Some TypeErr).
Proof. vm_compute. reflexivity. Qed.
Example C78_ex_spreading_collect : outcome_of (main ex_world true InterfaceFilesProps.ex_disk ["spreading"; "collect"; "map_"; "0"; "-co"; "4"; "-v"; "-dt=.5"]) =
  Some (["spread.xvg"; "map_00001.dat"; "map_00002.dat"], ["Time (ps) Radius (nm)"; "0.000 0.500"; "0.500 0.500"], None).
Proof. vm_compute. reflexivity. Qed.
Example C78_ex_convert : outcome_of (main ex_world true FormatsProps.two_frames ["convert"; "in/map_"; "out/flow_"; "--ftype"; "simple_plain"]) =
  Some (["flow_00002.dat"; "#flow_00002.dat.1#"; "flow_00001.dat"; "map_00001.dat"; "map_00002.dat"], [], None).
Proof. vm_compute. reflexivity. Qed.
Example C79_ex : ~ In "convert" spoilt /\ accepted FormatsProps.two_frames convert_cmd ["in/map_"; "out/flow_"; "--ftype"; "simple_plain"] /\
  accepted InterfaceFilesProps.ex_disk interface_collect_cmd ["-co"; "4"; "map_"; "out_"].
Proof.
  split; [cbn; intuition discriminate|split; (apply parse_accepted; [reflexivity|reflexivity|]; eexists _, _; reflexivity)].
Qed.
