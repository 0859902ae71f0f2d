(** C77, C78: which command lines are accepted, and what is passed to the functions. *)
From Coq Require Import String Ascii.
From Verif.Base Require Import QcX Res Np Bytes.
From Verif.Model Require Import Text PyText Click Cli.
From Verif.Spec Require Import CliSpec CliReads.
From Verif.Proofs Require Import TextP PyTextP ClickP CliP CliTextP.
From Verif.Model Require Utils Formats.
Local Open Scope string_scope.
Local Open Scope list_scope.
Local Notation length := List.length.

(** The commands, the keywords which are not passed on unchanged (besides 'end'), and the function which is called. *)
Definition commands (dashed : bool) : list (list string * command * list string * string) :=
  let cl := if dashed then "contact-line" else "contact_line" in
  [(["average"], average_cmd, ["recenter"], "average"); (["convert"], convert_cmd, [], "convert");
   (["sample"], sample_cmd, ["process"; "sum"], "sample_average_files");
   (["spreading"; "collect"], spreading_collect_cmd, ["verbose"; "nooutput"; "save"; "floor"], "collect"); (["spreading"; "view"], spreading_view_cmd, [], "view_spreading");
   (["spreading"; "fit"], spreading_fit_cmd, ["print"], "fit_spreading_data");
   (["interface"; "angle"], interface_angle_cmd, [], "interface_contact_angle"); (["interface"; "collect"], interface_collect_cmd, ["recenter"], "collect_interfaces");
   (["interface"; "view"], interface_view_cmd, [], "view_interfaces"); (["interface"; "sample"], interface_sample_cmd, ["ylabel"], "sample_interfaces");
   ([cl; "collect"], contact_line_collect_cmd, [], "extract_contact_line_bins"); ([cl; "sample"], contact_line_sample_cmd, ["process"; "sum"], "sample_contact_line_edges");
   (["view"; "height"], view_height_cmd, ["drawaxes"; "noaxis"; "type"], "view_flowmap_2d"); (["view"; "contour"], view_contour_cmd, ["type"], "view_flowmap_2d");
   (["view"; "flow"], view_flow_cmd, ["cutoff_label"], "view_flowfields")].
Definition body_of (fn : string) (c : command) : list val -> kwargs -> action :=
  if String.eqb fn "average" then average_body else if String.eqb fn "convert" then convert_body
  else if String.eqb fn "sample_average_files" then sum_body "sample_average_files" else if String.eqb fn "collect" then spreading_collect_body
  else if String.eqb fn "view_spreading" then spreading_view_body else if String.eqb fn "fit_spreading_data" then spreading_fit_body
  else if String.eqb fn "interface_contact_angle" then interface_angle_body else if String.eqb fn "collect_interfaces" then interface_collect_body
  else if String.eqb fn "view_interfaces" then interface_view_body else if String.eqb fn "sample_interfaces" then interface_sample_body
  else if String.eqb fn "extract_contact_line_bins" then contact_line_collect_body else if String.eqb fn "sample_contact_line_edges" then sum_body "sample_contact_line_edges"
  else if String.eqb fn "view_flowfields" then view_flow_body
  else if existsb (fun o => String.eqb (o_key o) "drawaxes") (c_opts c) then view_height_body else view_contour_body.
Lemma commands_run dashed d words c touched fn argv : In (words, c, touched, fn) (commands dashed) ->
  strata dashed d (words ++ argv) = Cli.run d c (body_of fn c) argv /\ good_table c = true /\ distinct c = true /\ distinct_keys c = true.
Proof.
  intros H. destruct dashed; cbn [commands In] in H.
  all: repeat match type of H with False => destruct H | _ \/ _ => destruct H as [H | H]; [injection H as <- <- <- <-; split; [reflexivity|split; [reflexivity|split; reflexivity]]|] end.
Qed.
Lemma body_runs dashed words c touched fn args kw : In (words, c, touched, fn) (commands dashed) -> length args = length (c_args c) ->
  body_of fn c args kw <> ARefused /\ body_of fn c args kw <> AInfo.
Proof.
  intros H. destruct dashed; cbn [commands In] in H.
  all: repeat match type of H with False => destruct H | _ \/ _ => destruct H as [H | H]; [injection H as <- <- <- <-; intros Hl|] end.
  all: try (split; discriminate).
  all: try (destruct args as [|? [|? [|]]]; try discriminate Hl; split; discriminate).
  all: cbn [body_of String.eqb Ascii.eqb Bool.eqb]; unfold interface_angle_body; destruct (_ || _)%bool; split; discriminate.
Qed.

(** ** C77 *)
(** A command runs if and only if the words are written as documented, the positional words and the values of the options can be read, and help is
    not asked for. *)
Theorem C77_accepted_iff dashed d words c touched fn argv : In (words, c, touched, fn) (commands dashed) ->
  (strata dashed d (words ++ argv) <> ARefused /\ strata dashed d (words ++ argv) <> AInfo <-> accepted d c argv).
Proof.
  intros H. destruct (commands_run dashed d words c touched fn argv H) as (-> & Hg & Hd & _). rewrite <- parse_accepted by assumption. unfold Cli.run.
  destruct (parse d c argv) as [| |args kw] eqn:E.
  - split; [intros [N _]; congruence|intros (? & ? & ?); discriminate].
  - split; [intros [_ N]; congruence|intros (? & ? & ?); discriminate].
  - split; [intros _; eauto|]. intros _. apply (body_runs dashed words c touched fn); [exact H|]. unfold parse in E. destruct (scan c None argv) as [[occs pos]|]; [|discriminate].
    destruct (existsb (fun x : string * list string => help_flag c (fst x)) occs); [discriminate|]. destruct (arg_values d (c_args c) pos) as [vs|] eqn:Ea; [|discriminate].
    destruct (option_mapM _ (c_opts c)); [|discriminate]. injection E as <- <-. apply (arg_values_length d _ _ _ Ea).
Qed.
Print Assumptions C77_accepted_iff.
(** Otherwise no function of the library is called. *)
Corollary C77_refused_does_nothing w dashed d words c touched fn argv : In (words, c, touched, fn) (commands dashed) -> ~ accepted d c argv ->
  main w dashed d (words ++ argv) = Some Usage \/ main w dashed d (words ++ argv) = Some Info.
Proof.
  intros H N. rewrite <- (C77_accepted_iff dashed d words c touched fn argv H) in N. unfold main. destruct (strata dashed d (words ++ argv)); auto; exfalso; apply N; split; discriminate.
Qed.
Print Assumptions C77_refused_does_nothing.
(** A name which is not one of a command is refused. *)
Definition main_names (dashed : bool) : list string := ["average"; "convert"; "sample"; "spreading"; "interface"; "view"; if dashed then "contact-line" else "contact_line"].
Theorem C77_unknown_command w dashed d name rest : ~ like_option name ->
  ~ In name (main_names dashed) ->
  main w dashed d (name :: rest) = Some Usage.
Proof.
  intros Hl Hn. assert (looks_opt (txt name) = false) as E by (destruct (looks_opt (txt name)) eqn:E; [apply looks_opt_iff in E; contradiction|reflexivity]).
  assert (name <> "--") as Hd by (intros ->; apply Hl; exists "-"%char, EmptyString; reflexivity).
  assert (forall s : string, In s (main_names dashed) -> String.eqb name s = false) as Hs.
  { intros s Hs. apply String.eqb_neq. intros ->. exact (Hn Hs). }
  unfold main, strata, in_group. cbn [group]. rewrite (proj2 (String.eqb_neq _ _) Hd), E. unfold contact_line_name.
  rewrite !Hs by (unfold main_names; cbn [In]; tauto). reflexivity.
Qed.
Print Assumptions C77_unknown_command.
(** Of an option which is given several times the last one counts, and the order of different options and their place between the other words do
    not matter. *)
Theorem C77_last_counts dashed d words c touched fn argv argv' t occs occs' pos : In (words, c, touched, fn) (commands dashed) -> (forall f n, t f = Some n <-> spelling c f n) ->
  writes t argv occs pos -> writes t argv' occs' pos -> (forall f, In f help -> ~ In f (map fst occs) /\ ~ In f (map fst occs')) ->
  (forall o, In o (c_opts c) -> forall f vs, given occs (o_flags o ++ o_offs o) f vs <-> given occs' (o_flags o ++ o_offs o) f vs) ->
  strata dashed d (words ++ argv) = strata dashed d (words ++ argv').
Proof.
  intros H Ht Hw Hw' Hh Hg. destruct (commands_run dashed d words c touched fn argv H) as (-> & Ha & Hd & _), (commands_run dashed d words c touched fn argv' H) as (-> & _).
  assert (forall f, t f = arity c f) as Et.
  { intros f. destruct (t f) as [n|] eqn:E1.
    - apply Ht in E1. symmetry. apply arity_spelling; assumption.
    - destruct (arity c f) as [n|] eqn:E2; [|reflexivity]. apply arity_spelling in E2; [|exact Hd]. apply Ht in E2. congruence. }
  apply (writes_ext t (arity c) _ _ _ Et) in Hw, Hw'. unfold Cli.run, parse. rewrite (writes_scan _ _ _ _ Ha Hw), (writes_scan _ _ _ _ Ha Hw').
  assert (forall l, (forall f, In f help -> ~ In f (map fst l)) -> existsb (fun x : string * list string => help_flag c (fst x)) l = false) as Nh.
  { intros l Hl. destruct (existsb _ l) eqn:E; [|reflexivity]. apply existsb_exists in E. destruct E as (x & Hx & E). apply help_flag_iff in E. exfalso. apply (Hl (fst x)); [tauto|apply in_map; exact Hx]. }
  rewrite (Nh occs), (Nh occs') by (intros f Hf; apply Hh; exact Hf).
  assert (forall o, In o (c_opts c) -> last_occ o occs = last_occ o occs') as El.
  { intros o Ho. destruct (last_occ o occs') as [[f vs]|] eqn:E.
    - apply last_occ_some. apply (Hg o Ho). apply last_occ_some. exact E.
    - destruct (last_occ o occs) as [[f vs]|] eqn:E2; [|reflexivity]. apply last_occ_some in E2. apply (Hg o Ho) in E2. apply last_occ_some in E2. congruence. }
  assert (option_mapM (fun o => option_map (pair (o_key o)) (opt_value d o occs)) (c_opts c) = option_mapM (fun o => option_map (pair (o_key o)) (opt_value d o occs')) (c_opts c)) as ->; [|reflexivity].
  revert El. generalize (c_opts c). intros l El. unfold option_mapM. induction l as [|o l IH]; [reflexivity|]. cbn [fold_right]. rewrite IH by (intros o' Ho'; apply El; right; exact Ho').
  unfold opt_value. rewrite (El o (or_introl eq_refl)). reflexivity.
Qed.
Print Assumptions C77_last_counts.

(** ** C78: keyword arguments *)
Lemma no_key c : existsb (fun o => String.eqb (o_key o) "end") (c_opts c) = false -> forall o, In o (c_opts c) -> o_key o <> "end".
Proof. intros H o Ho E. assert (existsb (fun o => String.eqb (o_key o) "end") (c_opts c) = true); [|congruence]. apply existsb_exists. exists o. split; [exact Ho|apply String.eqb_eq; exact E]. Qed.
(** Every option reaches the function as its keyword, with the value given last or the default; the last number is infinite if it is not given.  The
    other words are the positional arguments ('spreading collect' passes the height of the floor as a keyword, the viewing commands one argument per file). *)
Theorem C78_keywords dashed d words c touched fn argv occs pos fn' args kw after : In (words, c, touched, fn) (commands dashed) ->
  writes (takes (flatten c)) argv occs pos -> strata dashed d (words ++ argv) = ACall fn' args kw after ->
  fn' = fn /\ (forall o, In o (c_opts c) -> ~ In (o_key o) ("end" :: touched) -> delivers d occs o (get (o_key o) kw)) /\
  (forall o, In o (c_opts c) -> o_key o = "end" -> exists v, delivers d occs o v /\ get "end" kw = match v with VNone => VNum PInf | v => v end) /\
  exists vs, fits d (c_args c) pos vs /\
    args = if String.eqb fn "collect" then firstn 1 vs else if existsb (String.eqb fn) ["view_flowmap_2d"; "view_flowfields"] then flat_map (fun v => match v with VTuple l => l | v => [v] end) vs else vs.
Proof.
  intros H Hw Hs. destruct (commands_run dashed d words c touched fn argv H) as (E & Hg & Hd & Hk). rewrite E in Hs. unfold Cli.run in Hs.
  destruct (parse d c argv) as [| |args0 kw0] eqn:Ep; [discriminate|discriminate|]. destruct (parse_values d c argv args0 kw0 occs pos Hg Hk Hw Ep) as [Hv Ha].
  apply fits_iff in Ha.
  assert (fn' = fn /\ (forall k, ~ In k ("end" :: touched) -> get k kw = get k kw0) /\ ((forall o, In o (c_opts c) -> o_key o <> "end") \/ get "end" kw = match get "end" kw0 with VNone => VNum PInf | v => v end) /\
          args = if String.eqb fn "collect" then firstn 1 args0 else if existsb (String.eqb fn) ["view_flowmap_2d"; "view_flowfields"] then flat_map (fun v => match v with VTuple l => l | v => [v] end) args0 else args0)
    as (-> & Hkw & Hend & ->).
  { clear -H Hs. destruct dashed; cbn [commands In] in H.
    all: repeat match type of H with False => destruct H | _ \/ _ => destruct H as [H | H]; [injection H as <- <- <- <-|] end.
    all: match type of Hs with body_of ?n ?m _ _ = _ => let x := eval hnf in (body_of n m) in change (body_of n m) with x in Hs end.
    all: unfold average_body, convert_body, sum_body, spreading_collect_body, spreading_view_body, spreading_fit_body, interface_angle_body, interface_collect_body,
      interface_view_body, interface_sample_body, contact_line_collect_body, view_height_body, view_contour_body, view_flow_body in Hs; cbv zeta in Hs.
    all: try match type of Hs with (if ?b then _ else _) = _ => destruct b; [|discriminate] end.
    all: try match type of Hs with match ?a with _ => _ end = _ => destruct a as [|? [|? [|]]]; try discriminate end.
    all: pose proof (f_equal (fun a => match a with ACall f _ _ _ => f | _ => ""%string end) Hs) as E1; cbv beta iota in E1.
    all: pose proof (f_equal (fun a => match a with ACall _ _ k _ => k | _ => [] end) Hs) as E2; cbv beta iota in E2.
    all: pose proof (f_equal (fun a => match a with ACall _ l _ _ => l | _ => [] end) Hs) as E3; cbv beta iota in E3; clear Hs.
    all: split; [symmetry; exact E1|]. all: rewrite <- E3, <- E2; clear.
    all: repeat match goal with |- context [if ?b then _ else _] => lazymatch b with String.eqb _ _ => fail | existsb _ _ => fail | _ => destruct b end end.
    all: split; [intros k Hk; cbn [In] in Hk;
                 repeat first [rewrite get_set by (intros ->; apply Hk; auto 10) | rewrite get_del by (intros ->; apply Hk; auto 10)
                              | rewrite get_none_to_inf by (intros ->; apply Hk; auto 10)]; reflexivity|split; [|reflexivity]].
    all: first [left; apply no_key; reflexivity|right; repeat first [rewrite get_set by discriminate | rewrite get_del by discriminate]; rewrite get_end_inf;
                repeat first [rewrite get_set by discriminate | rewrite get_del by discriminate]; reflexivity]. }
  split; [reflexivity|]. split; [|split].
  - intros o Ho Hn. rewrite (Hkw _ Hn). apply opt_value_delivers, Hv, Ho.
  - intros o Ho Ek. exists (get "end" kw0). split; [rewrite <- Ek; apply opt_value_delivers, Hv, Ho|]. destruct Hend as [Hn|Hend]; [exfalso; exact (Hn o Ho Ek)|rewrite Hend; destruct (get "end" kw0); reflexivity].
  - exists args0. split; [exact Ha|reflexivity].
Qed.
Print Assumptions C78_keywords.
(** The keywords which are derived from options. *)
Lemma call_of dashed d words c touched fn argv occs pos fn' args kw after : In (words, c, touched, fn) (commands dashed) -> writes (takes (flatten c)) argv occs pos ->
  strata dashed d (words ++ argv) = ACall fn' args kw after ->
  exists args0 kw0, body_of fn c args0 kw0 = ACall fn' args kw after /\ (forall o, In o (c_opts c) -> delivers d occs o (get (o_key o) kw0)) /\ fits d (c_args c) pos args0.
Proof.
  intros H Hw Hs. destruct (commands_run dashed d words c touched fn argv H) as (E & Hg & Hd & Hk). rewrite E in Hs. unfold Cli.run in Hs.
  destruct (parse d c argv) as [| |args0 kw0] eqn:Ep; [discriminate|discriminate|]. destruct (parse_values d c argv args0 kw0 occs pos Hg Hk Hw Ep) as [Hv Ha].
  exists args0, kw0. split; [exact Hs|]. split; [intros o Ho; apply opt_value_delivers, Hv, Ho|apply fits_iff; exact Ha].
Qed.
(** [--process]: 'sum' or 'mean'. *)
Theorem C78_process dashed d words c touched fn argv occs pos fn' args kw after : In (words, c, touched, fn) (commands dashed) -> In fn ["sample_average_files"; "sample_contact_line_edges"] ->
  writes (takes (flatten c)) argv occs pos -> strata dashed d (words ++ argv) = ACall fn' args kw after ->
  exists p, chosen occs ["--process"] (one_of ["mean"; "sum"]) "mean" p /\ get "sum" kw = VBool (String.eqb p "sum") /\ get "process" kw = VNone.
Proof.
  intros H Hf Hw Hs. destruct (call_of _ _ _ _ _ _ _ _ _ _ _ _ _ H Hw Hs) as (args0 & kw0 & E & Hv & _).
  assert (body_of fn c = sum_body fn /\ In (one ["--process"] "process" (KChoice ["mean"; "sum"]) (VText "mean")) (c_opts c)) as [Eb Ho].
  { clear -H Hf. destruct dashed; cbn [commands In] in H.
    all: repeat match type of H with False => destruct H | _ \/ _ => destruct H as [H | H]; [injection H as <- <- <- <-|] end.
    all: try (exfalso; cbn in Hf; repeat (destruct Hf as [Hf | Hf]; [discriminate|]); exact Hf).
    all: split; [reflexivity|cbn; auto 20]. }
  rewrite Eb in E. unfold sum_body in E.
  pose proof (f_equal (fun a => match a with ACall _ _ k _ => k | _ => [] end) E) as E2. cbv beta iota zeta in E2. apply Hv in Ho. cbn [o_key one] in Ho.
  assert (exists p, chosen occs ["--process"] (one_of ["mean"; "sum"]) "mean" p /\ get "process" kw0 = VText p) as (p & Hp & Ep).
  { destruct Ho as [[Hn Ed] | (f & vs & Hg & t & -> & Ht)].
    - exists "mean". split; [right; split; [exact Hn|reflexivity]|exact Ed].
    - cbn in Ht. destruct Ht as [Ht1 Ht2]. exists t. split; [|exact Ht2]. left. exists f, t. split; [exact Hg|split; [exact Ht1|reflexivity]]. }
  exists p. split; [exact Hp|]. rewrite <- E2. rewrite get_set_same, get_set by discriminate. rewrite get_none_to_inf, Ep by discriminate. split; [reflexivity|].
  clear. induction (set_none_to_inf kw0) as [|[k v] l IH]; [reflexivity|]. cbn [del]. destruct (String.eqb "process" k) eqn:E; [exact IH|]. cbn [get]. rewrite E. exact IH.
Qed.
Print Assumptions C78_process.
(** 'interface sample' names the axis after the variable if no label is given. *)
Theorem C78_sample_label dashed d argv occs base variable args kw after : writes (takes (flatten interface_sample_cmd)) argv occs [base; variable] ->
  strata dashed d ("interface" :: "sample" :: argv) = ACall "sample_interfaces" args kw after ->
  (variable = "area" \/ variable = "length") /\ args = [VText base; VText variable] /\
  exists l, chosen occs ["--ylabel"] as_is "" l /\ get "ylabel" kw = VText (if String.eqb l "" then if String.eqb variable "area" then "A (nm^2)" else "L (nm)" else l).
Proof.
  intros Hw Hs. assert (In (["interface"; "sample"], interface_sample_cmd, ["ylabel"], "sample_interfaces") (commands dashed)) as H by (destruct dashed; cbn; auto 20).
  destruct (call_of dashed d ["interface"; "sample"] _ _ _ _ _ _ _ _ _ _ H Hw Hs) as (args0 & kw0 & E & Hv & Ha).
  change (body_of "sample_interfaces" interface_sample_cmd) with interface_sample_body in E. unfold interface_sample_body in E.
  pose proof (f_equal (fun a => match a with ACall _ _ k _ => k | _ => [] end) E) as E2. pose proof (f_equal (fun a => match a with ACall _ l _ _ => l | _ => [] end) E) as E3.
  cbv beta iota zeta in E2, E3. subst args.
  inversion Ha as [|? ? ? v1 ? vs1 _ R1 F1|? ? ? Em]; subst. inversion F1 as [|? ? ? v2 ? vs2 _ R2 F2|? ? ? Em]; subst; [|discriminate Em].
  inversion F2; subst. cbn in R1, R2. subst v1. destruct R2 as [Rv ->]. split; [destruct Rv as [<- | [<- | []]]; auto|]. split; [reflexivity|].
  pose proof (Hv (one ["--ylabel"] "ylabel" KText VNone)) as Ho. assert (In (one ["--ylabel"] "ylabel" KText VNone) (c_opts interface_sample_cmd)) as Hin by (cbn; auto 20).
  specialize (Ho Hin). cbn [o_key one] in Ho. clear Hin Hv.
  destruct Ho as [[Hn Ed] | (f & vs & Hg & t & -> & Ht)].
  - exists "". split; [right; split; [exact Hn|reflexivity]|]. cbn [o_default one] in Ed. rewrite Ed. cbn [truthy nth]. rewrite get_none_to_inf, get_set_same by discriminate. reflexivity.
  - cbn in Ht. exists t. split; [left; exists f, t; split; [exact Hg|reflexivity]|]. rewrite Ht. cbn [truthy nth].
    destruct (String.eqb_spec t "") as [->|Nt]; cbn [negb]; rewrite get_none_to_inf by discriminate; [rewrite get_set_same; reflexivity|exact Ht].
Qed.
Print Assumptions C78_sample_label.
(** The fitted parameters are printed if this is not switched off. *)
Theorem C78_print_fits dashed d argv occs pos args kw after : writes (takes (flatten spreading_fit_cmd)) argv occs pos ->
  strata dashed d ("spreading" :: "fit" :: argv) = ACall "fit_spreading_data" args kw after ->
  exists p, switched occs ["--print"] ["--noprint"] true p /\ after = if p then PrintFits else Ignore.
Proof.
  intros Hw Hs. assert (In (["spreading"; "fit"], spreading_fit_cmd, ["print"], "fit_spreading_data") (commands dashed)) as H by (destruct dashed; cbn; auto 20).
  destruct (call_of dashed d ["spreading"; "fit"] _ _ _ _ _ _ _ _ _ _ H Hw Hs) as (args0 & kw0 & E & Hv & Ha).
  change (body_of "fit_spreading_data" spreading_fit_cmd) with spreading_fit_body in E. unfold spreading_fit_body in E.
  pose proof (f_equal (fun a => match a with ACall _ _ _ k => k | _ => Ignore end) E) as E2. cbv beta iota in E2. subst after.
  pose proof (Hv (flag ["--print"] ["--noprint"] "print" true)) as Ho. assert (In (flag ["--print"] ["--noprint"] "print" true) (c_opts spreading_fit_cmd)) as Hin by (cbn; auto 20).
  specialize (Ho Hin). cbn [o_key flag] in Ho. destruct Ho as [[Hn Ed] | (f & vs & Hg & b & Ht & Hb)].
  - exists true. split; [right; split; [exact Hn|reflexivity]|]. rewrite Ed. reflexivity.
  - exists b. assert (vs = []) as ->.
    { destruct Hg as (Hf & before & aft & Eo & _). pose proof (writes_lengths _ _ _ _ Hw (f, vs)) as L. rewrite Eo in L. specialize (L (in_elt _ _ _)). cbn [fst snd] in L.
      cbn in Hf. destruct Hf as [<- | [<- | []]]; cbn in L; destruct vs; [reflexivity|discriminate|reflexivity|discriminate]. }
    split; [left; exists f; split; [exact Hg|exact Hb]|]. rewrite Ht. destruct b; reflexivity.
Qed.
Print Assumptions C78_print_fits.
