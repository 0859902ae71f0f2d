(** C77, C78: the words before a command; which keywords are passed, and the fixed ones. *)
From Coq Require Import String Ascii.
From Verif.Base Require Import QcX Res Np Bytes.
From Verif.Model Require Import Text PyText Click Cli.
From Verif.Spec Require Import CliSpec CliReads.
From Verif.Proofs Require Import TextP PyTextP ClickP CliP CliTextP.
From Verif.Model Require Utils Formats.
From Verif.Props Require Import CliTextProps.
Local Open Scope string_scope.
Local Open Scope list_scope.
Local Notation length := List.length.

(** ** C77: the words before a command *)
Definition group_names (dashed : bool) : list string := ["spreading"; "interface"; "view"; if dashed then "contact-line" else "contact_line"].
Lemma group_runs dashed d g : In g (group_names dashed) -> exists f, forall rest, strata dashed d (g :: rest) = in_group false rest f.
Proof.
  intros Hg. destruct dashed; cbn [group_names In] in Hg; (destruct Hg as [<- | [<- | [<- | [<- | []]]]]; eexists; intros rest; unfold strata; unfold in_group at 1; cbn -[in_group]; reflexivity).
Qed.
(** Without a command, or with one of the documented options in front of it, a text is shown and nothing is done. *)
Theorem C77_shows_text w dashed d : main w dashed d [] = Some Info /\
  (forall g, In g (group_names dashed) -> main w dashed d [g] = Some Info) /\
  (forall o rest, In o ["-h"; "--help"; "-V"; "--version"] -> (forall a more, rest = a :: more -> ~ like_option a) -> main w dashed d (o :: rest) = Some Info) /\
  (forall g o rest, In g (group_names dashed) -> In o ["-h"; "--help"] -> (forall a more, rest = a :: more -> ~ like_option a) -> main w dashed d (g :: o :: rest) = Some Info) /\
  (forall g o rest, In g (group_names dashed) -> In o ["-V"; "--version"] -> main w dashed d (g :: o :: rest) = Some Usage).
Proof.
  assert (forall c rest, (forall a more, rest = a :: more -> ~ like_option a) -> exists x, group c rest = Some x) as G.
  { intros c [|a more] H; [eexists; reflexivity|]. cbn [group]. destruct (String.eqb a "--"); [eexists; reflexivity|].
    assert (looks_opt (txt a) = false) as -> by (destruct (looks_opt (txt a)) eqn:E; [apply looks_opt_iff in E; destruct (H a more eq_refl E)|reflexivity]). eexists; reflexivity. }
  split; [reflexivity|]. split; [|split; [|split]].
  - intros g Hg. destruct dashed; cbn [group_names In] in Hg; repeat (destruct Hg as [<- | Hg]; [reflexivity|]); destruct Hg.
  - intros o rest Ho Hr. destruct (G (info_cmd true) rest Hr) as [x Hx].
    unfold main, strata, in_group. cbn [In] in Ho. repeat (destruct Ho as [<- | Ho]; [cbn [group]; rewrite Hx; destruct x; reflexivity|]). destruct Ho.
  - intros g o rest Hg Ho Hr. destruct (G (info_cmd false) rest Hr) as [x Hx].
    assert (in_group false (o :: rest) = fun _ => AInfo) as E.
    { unfold in_group. cbn [In] in Ho. repeat (destruct Ho as [<- | Ho]; [cbn [group]; rewrite Hx; destruct x; reflexivity|]). destruct Ho. }
    destruct (group_runs dashed d g Hg) as [f Ef]. unfold main. rewrite Ef, E. reflexivity.
  - intros g o rest Hg Ho.
    assert (in_group false (o :: rest) = fun _ => ARefused) as E.
    { unfold in_group. cbn [In] in Ho. repeat (destruct Ho as [<- | Ho]; [cbn [group]; reflexivity|]). destruct Ho. }
    destruct (group_runs dashed d g Hg) as [f Ef]. unfold main. rewrite Ef, E. reflexivity.
Qed.
Print Assumptions C77_shows_text.
(** A name after '--' is the same command. *)
Theorem C77_dashes dashed d name rest : ~ like_option name -> strata dashed d ("--" :: name :: rest) = strata dashed d (name :: rest) /\
  forall g, In g (group_names dashed) -> strata dashed d (g :: "--" :: name :: rest) = strata dashed d (g :: name :: rest).
Proof.
  intros Hl. assert (looks_opt (txt name) = false) as E by (destruct (looks_opt (txt name)) eqn:E; [apply looks_opt_iff in E; contradiction|reflexivity]).
  assert (String.eqb name "--" = false) as N by (apply String.eqb_neq; intros ->; apply Hl; exists "-"%char, EmptyString; reflexivity).
  assert (forall m f, in_group m ("--" :: name :: rest) f = in_group m (name :: rest) f) as G.
  { intros m f. unfold in_group. cbn [group]. rewrite N, E. reflexivity. }
  split; [apply G|]. intros g Hg. destruct (group_runs dashed d g Hg) as [f Ef]. rewrite !Ef. apply G.
Qed.
Print Assumptions C77_dashes.

(** ** C78: the keywords *)
(** Options which are not passed on, and the keywords which are passed besides the options. *)
Definition dropped (words : list string) : list string :=
  match words with
  | ["sample"] | ["contact_line"; "sample"] | ["contact-line"; "sample"] => ["process"] | ["spreading"; "collect"] => ["verbose"; "nooutput"] | ["spreading"; "fit"] => ["print"] | ["view"; "height"] => ["drawaxes"] | _ => []
  end.
Definition added (words : list string) : list string :=
  match words with
  | ["sample"] => ["sum"] | ["contact_line"; "sample"] | ["contact-line"; "sample"] => ["sum"] | ["spreading"; "collect"] => ["floor"] | ["view"; "height"] => ["type"] | ["view"; "contour"] => ["type"] | ["view"; "flow"] => ["cutoff_label"] | _ => []
  end.
Lemma keys_del k kw x : In x (map fst (del k kw)) <-> In x (map fst kw) /\ x <> k.
Proof.
  induction kw as [|[k' v] kw IH]; cbn [del map In fst]; [tauto|]. destruct (String.eqb_spec k k') as [<- | N]; cbn [map In fst]; rewrite IH; [intuition congruence|]. intuition congruence.
Qed.
Lemma keys_set k v kw x : In x (map fst (set k v kw)) <-> In x (map fst kw) \/ x = k.
Proof. unfold set. cbn [map In fst]. rewrite keys_del. destruct (String.string_dec x k) as [-> | N]; intuition congruence. Qed.
Lemma keys_set_in k v kw x : In k (map fst kw) -> (In x (map fst (set k v kw)) <-> In x (map fst kw)).
Proof. intros H. rewrite keys_set. split; [intros [A | ->]; assumption|tauto]. Qed.
Lemma keys_none_to_inf kw x : In "end" (map fst kw) -> (In x (map fst (set_none_to_inf kw)) <-> In x (map fst kw)).
Proof. intros H. unfold set_none_to_inf. destruct (get "end" kw); try tauto. rewrite keys_set. split; [intros [A | ->]; assumption|tauto]. Qed.
Lemma parse_keys d c argv args kw : parse d c argv = Parsed args kw -> map fst kw = map o_key (c_opts c).
Proof.
  unfold parse. destruct (scan c None argv) as [[occs pos]|]; [|discriminate]. match goal with |- (if ?b then _ else _) = _ -> _ => destruct b end; [discriminate|]. destruct (arg_values d (c_args c) pos) as [vs|]; [|discriminate].
  destruct (option_mapM _ (c_opts c)) as [l0|] eqn:E; [|discriminate]. intros H. assert (l0 = kw) as <- by congruence. clear H.
  clear vs. revert l0 E. induction (c_opts c) as [|o os IH]; intros l0 E; [injection E as <-; reflexivity|].
  change (match option_map (pair (o_key o)) (opt_value d o occs), option_mapM (fun o => option_map (pair (o_key o)) (opt_value d o occs)) os with Some b, Some bs => Some (b :: bs) | _, _ => None end = Some l0) in E.
  destruct (opt_value d o occs) as [v|]; cbn [option_map] in E; [|discriminate E].
  destruct (option_mapM (fun o => option_map (pair (o_key o)) (opt_value d o occs)) os) as [l1|]; [|discriminate E]. injection E as <-. cbn [map fst]. f_equal. apply IH. reflexivity.
Qed.
Theorem C78_keyword_names dashed d words c touched fn argv fn' args kw after : In (words, c, touched, fn) (commands dashed) ->
  strata dashed d (words ++ argv) = ACall fn' args kw after ->
  forall k, In k (map fst kw) <-> (In k (map o_key (c_opts c)) /\ ~ In k (dropped words)) \/ In k (added words).
Proof.
  intros H Hs k. destruct (commands_run dashed d words c touched fn argv H) as (E & _). rewrite E in Hs. unfold Cli.run in Hs. clear E.
  destruct (parse d c argv) as [| |args0 kw0] eqn:Ep; [discriminate|discriminate|]. pose proof (parse_keys d c argv args0 kw0 Ep) as K. clear Ep.
  destruct dashed; cbn [commands In] in H.
  all: repeat match type of H with False => destruct H | _ \/ _ => destruct H as [H | H]; [injection H as <- <- <- <-|] end.
  all: match type of Hs with body_of ?n ?m _ _ = _ => let x := eval hnf in (body_of n m) in change (body_of n m) with x in Hs end.
  all: unfold average_body, convert_body, sum_body, spreading_collect_body, spreading_view_body, spreading_fit_body, interface_angle_body, interface_collect_body,
    interface_view_body, interface_sample_body, contact_line_collect_body, view_height_body, view_contour_body, view_flow_body in Hs; cbv zeta in Hs.
  all: try match type of Hs with (if ?b then _ else _) = _ => destruct b; [|discriminate] end.
  all: try match type of Hs with match ?a with _ => _ end = _ => destruct a as [|? [|? [|]]]; try discriminate end.
  all: pose proof (f_equal (fun a => match a with ACall _ _ k _ => k | _ => [] end) Hs) as E2; cbv beta iota in E2; clear Hs; rewrite <- E2; clear E2.
  all: repeat match goal with |- context [if ?b then _ else _] => destruct b end.
  all: cbn [dropped added].
  all: assert (forall x, existsb (String.eqb x) (map fst kw0) = true -> In x (map fst kw0)) as B
    by (intros x Hx; apply existsb_exists in Hx; destruct Hx as (y & Hy & Ey); apply String.eqb_eq in Ey; rewrite Ey; exact Hy).
  all: rewrite K in B.
  all: repeat first [rewrite keys_none_to_inf by (repeat first [apply (proj2 (keys_del _ _ _)); split; [|discriminate]|apply (proj2 (keys_set _ _ _ _)); left]; rewrite K; apply B; vm_compute; reflexivity)
                    |rewrite keys_set_in by (try rewrite keys_none_to_inf by (rewrite K; apply B; vm_compute; reflexivity); repeat (apply (proj2 (keys_del _ _ _)); split; [|discriminate]); rewrite K; apply B; vm_compute; reflexivity)
                    |rewrite keys_set|rewrite keys_del].
  all: rewrite K; clear B K.
  all: match goal with |- context [In ?x (map o_key ?l)] => generalize (In x (map o_key l)); intros P; assert (forall s, (s = x) <-> (x = s)) as S by (split; intros ->; reflexivity); cbn [In]; rewrite ?S; tauto end.
Qed.
Print Assumptions C78_keyword_names.
(** The type of map which is drawn, and the field of the cutoff for arrows. *)
Theorem C78_view_kind dashed d words c touched fn argv fn' args kw after : In (words, c, touched, fn) (commands dashed) ->
  strata dashed d (words ++ argv) = ACall fn' args kw after ->
  (words = ["view"; "height"] -> get "type" kw = VText "height") /\ (words = ["view"; "contour"] -> get "type" kw = VText "contour") /\
  (words = ["view"; "flow"] -> get "cutoff_label" kw = VText "M").
Proof.
  intros H Hs. destruct (commands_run dashed d words c touched fn argv H) as (E & _). rewrite E in Hs. unfold Cli.run in Hs. clear E.
  destruct (parse d c argv) as [| |args0 kw0]; [discriminate|discriminate|].
  split; [|split]; intros ->; (destruct dashed; cbn [commands In] in H; repeat match type of H with False => destruct H | _ \/ _ => destruct H as [H | H]; [try discriminate H|] end;
    assert (body_of fn c args0 kw0 = ACall fn' args kw after) as Hs' by exact Hs; injection H as <- <- <-;
    match type of Hs' with body_of ?n ?m _ _ = _ => let x := eval hnf in (body_of n m) in change (body_of n m) with x in Hs' end;
    pose proof (f_equal (fun a => match a with ACall _ _ k _ => k | _ => [] end) Hs') as E2; cbv beta iota in E2; rewrite <- E2; reflexivity).
Qed.
Print Assumptions C78_view_kind.
(** 'view flow' with two files: all keywords are known, and the cutoff is one of mass. *)
Example C78_ex_names : exists args kw, strata true {| Utils.files := [(Formats.os_path "a", ""); (Formats.os_path "b", "")]; Utils.dirs := [] |} ["view"; "flow"; "a"; "--"; "b"] =
    ACall "view_flowfields" args kw Ignore /\ args = [VText "a"; VText "b"] /\ get "cutoff_label" kw = VText "M" /\ In "cutoff" (map fst kw) /\ ~ In "print" (map fst kw).
Proof. do 2 eexists. split; [vm_compute; reflexivity|]. vm_compute. intuition discriminate. Qed.
