(** Property C84: the options of figures. *)
From Coq Require Import String Ascii.
From Verif.Base Require Import QcX Res Np Bytes.
From Verif.Model Require Import Click Figure.
From Verif.Model Require Cli.
Import Cli(truthy).
From Verif.Proofs Require Import CliTextP.
Local Open Scope string_scope.
Local Open Scope list_scope.
Local Notation length := List.length.

(** ** Keywords *)
(** The options of a figure and their defaults. *)
Definition options : list (string * val) :=
  [("title", VText ""); ("xlabel", VText ""); ("ylabel", VText ""); ("xlim", VNone); ("ylim", VNone); ("axis", VNone); ("colorbar", VBool false); ("colormap", VNone);
   ("cbarlabel", VNone); ("cbarticks", VNone); ("cbarticklabels", VNone); ("legend", VBool false); ("loglog", VBool false); ("save_fig", VNone); ("dpi", VInt 150); ("transparent", VBool false);
   ("show", VBool true); ("noaxis", VBool false); ("clf", VBool true)].
Definition is_option (k : string) : Prop := exists v, In (k, v) options.
(** The value of an option: the one which is given, or the default. *)
Definition setting (kw : kwargs) (k : string) (v : val) : Prop := (In k (map fst kw) /\ v = get k kw) \/ (~ In k (map fst kw) /\ In (k, v) options).

Lemma has_in k kw : has k kw = true <-> In k (map fst kw).
Proof.
  unfold has. rewrite existsb_exists. split.
  - intros ([k' v] & H & E). cbn [fst] in E. apply String.eqb_eq in E. subst k'. apply in_map_iff. exists (k, v). auto.
  - intros H. apply in_map_iff in H as ([k' v] & <- & H). exists (k', v). split; [exact H|apply String.eqb_refl].
Qed.
Lemma get_del_other k j kw : k <> j -> get k (del j kw) = get k kw.
Proof.
  intros H. induction kw as [|[k' v] kw IH]; [reflexivity|]. cbn [del get]. destruct (String.eqb_spec j k') as [-> | N].
  - rewrite IH. destruct (String.eqb_spec k k'); [contradiction|reflexivity].
  - cbn [get]. rewrite IH. reflexivity.
Qed.
Lemma has_del k j kw : has k (del j kw) = (negb (String.eqb k j) && has k kw)%bool.
Proof.
  unfold has. induction kw as [|[k' v] kw IH]; cbn [del existsb fst]; [destruct (String.eqb k j); reflexivity|]. destruct (String.eqb_spec j k') as [-> | N].
  - rewrite IH. destruct (String.eqb k k'); reflexivity.
  - cbn [existsb fst]. rewrite IH. destruct (String.eqb_spec k k') as [-> | N']; [destruct (String.eqb_spec k' j); [congruence|reflexivity]|destruct (String.eqb k j); reflexivity].
Qed.

(** One option after the other. *)
Definition keys : list (string * val) := flat_map (fun kd => map (fun k => (k, snd kd)) (fst kd)) key_defaults.
Fixpoint popped (ks : list (string * val)) (kw : kwargs) : kwargs := match ks with [] => [] | (k, v) :: ks => (k, get_or k v kw) :: popped ks kw end.
Definition rest (ks : list (string * val)) (kw : kwargs) : kwargs := fold_left (fun kw k => del (fst k) kw) ks kw.
Lemma get_or_del k j v kw : k <> j -> get_or k v (del j kw) = get_or k v kw.
Proof. intros H. unfold get_or. rewrite has_del, get_del_other by exact H. destruct (String.eqb_spec k j); [contradiction|reflexivity]. Qed.
Lemma pop_spec kw : pop_figure_kwargs kw = (popped keys kw, rest keys kw).
Proof.
  unfold pop_figure_kwargs, key_defaults. cbn [fold_left fst snd app]. repeat rewrite get_or_del by discriminate. reflexivity.
Qed.
Lemma get_popped k v kw : In (k, v) options -> get k (popped keys kw) = get_or k v kw.
Proof. intros H. cbn [options In] in H. repeat (destruct H as [E|H]; [injection E as <- <-; reflexivity|]). destruct H. Qed.
Lemma setting_iff kw k v : is_option k -> v = get k (popped keys kw) <-> setting kw k v.
Proof.
  intros (d & Hd). rewrite (get_popped k d kw Hd). unfold setting, get_or. rewrite <- has_in. destruct (has k kw).
  - split; [intros ->; left; auto|intros [[_ H]|[C _]]; [exact H|destruct C; reflexivity]].
  - split; [intros ->; right; split; [discriminate|exact Hd]|]. intros [[C _]|[_ H]]; [discriminate|]. clear -H Hd.
    cbn [options In] in H, Hd. repeat (destruct H as [E|H]; [injection E as <- <-; repeat (destruct Hd as [E|Hd]; [first [discriminate E | congruence]|]); destruct Hd|]). destruct H.
Qed.
Lemma rest_has ks k kw : has k (rest ks kw) = (negb (existsb (String.eqb k) (map fst ks)) && has k kw)%bool.
Proof.
  revert kw; induction ks as [|[j v] ks IH]; intros kw; [reflexivity|]. unfold rest. cbn [fold_left fst]. fold (rest ks (del j kw)). rewrite IH, has_del. cbn [map fst existsb].
  destruct (String.eqb k j); [rewrite Bool.andb_false_r; reflexivity|reflexivity].
Qed.
Lemma rest_get ks k kw : ~ In k (map fst ks) -> get k (rest ks kw) = get k kw.
Proof.
  revert kw; induction ks as [|[j v] ks IH]; intros kw H; [reflexivity|]. unfold rest. cbn [fold_left fst]. fold (rest ks (del j kw)). rewrite IH by (intros C; apply H; right; exact C).
  apply get_del_other. intros ->. apply H. left. reflexivity.
Qed.
Lemma keys_options k : In k (map fst keys) <-> is_option k.
Proof.
  unfold is_option. split.
  - intros H. assert (In k (map fst options)) as H' by (cbn in H |- *; intuition). apply in_map_iff in H' as ([k' v] & <- & H'). exists v. exact H'.
  - intros (v & H). apply (in_map fst) in H. cbn in H |- *. intuition.
Qed.

(** The drawing comes first.  The function gets all other keywords as they are, and none of the options. *)
Theorem C84_keywords : forall kw, exists kw' later, figure_calls kw = Draw kw' :: later /\
  (forall k, is_option k -> ~ In k (map fst kw')) /\
  (forall k, ~ is_option k -> (In k (map fst kw') <-> In k (map fst kw)) /\ get k kw' = get k kw).
Proof.
  intros kw. exists (rest keys kw). unfold figure_calls. rewrite pop_spec. eexists. split; [reflexivity|]. split.
  - intros k Hk. rewrite <- has_in, rest_has. apply keys_options in Hk.
    assert (existsb (String.eqb k) (map fst keys) = true) as -> by (apply existsb_exists; exists k; split; [exact Hk|apply String.eqb_refl]). discriminate.
  - intros k Hk. rewrite <- keys_options in Hk. split; [|apply rest_get; exact Hk]. rewrite <- !has_in, rest_has.
    assert (existsb (String.eqb k) (map fst keys) = false) as ->; [|reflexivity]. destruct (existsb (String.eqb k) (map fst keys)) eqn:E; [|reflexivity].
    apply existsb_exists in E as (j & Hj & E). apply String.eqb_eq in E. subst j. contradiction.
Qed.
Print Assumptions C84_keywords.

(** ** What is done with the options *)
Definition on (kw : kwargs) (k : string) : Prop := exists v, setting kw k v /\ truthy v = true.
(** Which calls the options ask for. *)
Definition asked (kw : kwargs) (c : call) : Prop :=
  match c with
  | Draw kw' => (forall k, is_option k -> ~ In k (map fst kw')) /\ (forall k, ~ is_option k -> (In k (map fst kw') <-> In k (map fst kw)) /\ get k kw' = get k kw)
  | Title v => setting kw "title" v
  | XLabel v => setting kw "xlabel" v
  | YLabel v => setting kw "ylabel" v
  | LogX | LogY => on kw "loglog"
  | Axis v => setting kw "axis" v /\ truthy v = true
  | XLim v => setting kw "xlim" v
  | YLim v => setting kw "ylim" v
  | SetCmap v => setting kw "colormap" v /\ v <> VNone
  | Colorbar => on kw "colorbar"
  | BarLabel v => on kw "colorbar" /\ setting kw "cbarlabel" v /\ truthy v = true
  | BarTicks v => on kw "colorbar" /\ setting kw "cbarticks" v /\ truthy v = true
  | BarTickLabels v => on kw "colorbar" /\ setting kw "cbarticklabels" v /\ truthy v = true
  | Legend => on kw "legend"
  | AxisOff => on kw "noaxis"
  | Tight => True
  | Save p dpi t => setting kw "save_fig" p /\ p <> VNone /\ setting kw "dpi" dpi /\ setting kw "transparent" t
  | Show => on kw "show"
  | Clear => on kw "clf"
  end.
Ltac opt := eexists; cbn [options In]; intuition reflexivity.
Lemma on_iff kw k : is_option k -> on kw k <-> truthy (get k (popped keys kw)) = true.
Proof.
  intros Hk. unfold on. split.
  - intros (v & Hv & T). apply (setting_iff kw k v Hk) in Hv. subst v. exact T.
  - intros T. exists (get k (popped keys kw)). split; [apply (setting_iff kw k _ Hk); reflexivity|exact T].
Qed.
Lemma in_when c b l : In c (when b l) <-> b = true /\ In c l.
Proof. destruct b; cbn [when In]; intuition discriminate. Qed.
Lemma not_none v : negb (is_none v) = true <-> v <> VNone.
Proof. destruct v; cbn [is_none negb]; intuition discriminate. Qed.
Ltac find := lazymatch goal with |- _ \/ _ => (left; find) || (right; find) | |- _ /\ _ => split; find | |- True => exact I | |- _ => reflexivity || assumption end.
(** Everything which the options ask for is done, and nothing else. *)
Theorem C84_calls : forall kw c, (forall kw', c <> Draw kw') -> In c (figure_calls kw) <-> asked kw c.
Proof.
  intros kw c Hc. destruct c; [destruct (Hc _ eq_refl)|..]; clear Hc; cbn [asked]; rewrite <- ?setting_iff by opt; rewrite ?on_iff by opt; unfold figure_calls; rewrite pop_spec; generalize (popped keys kw) (rest keys kw); intros f r; clear kw; cbv iota beta;
    repeat first [rewrite in_app_iff | rewrite in_when]; rewrite ?not_none; cbn [In].
  all: split; intros H.
  all: try (repeat match goal with H : _ \/ _ |- _ => destruct H as [H|H] | H : _ /\ _ |- _ => destruct H as [? H] | H : False |- _ => destruct H end; try discriminate; inversion H; subst; repeat split; try reflexivity; try assumption; fail).
  all: repeat match goal with H : _ /\ _ |- _ => destruct H as [? H] end; subst.
  all: find.
Qed.
Print Assumptions C84_calls.

(** ** The order *)
(** Each kind of call is made once at most, in this order: first the drawing; the picture is saved after everything was set and before it is shown; it is cleared last. *)
Definition rank (c : call) : nat :=
  match c with
  | Draw _ => 0 | Title _ => 1 | XLabel _ => 2 | YLabel _ => 3 | LogX => 4 | LogY => 5 | Axis _ => 6 | XLim _ => 7 | YLim _ => 8 | SetCmap _ => 9 | Colorbar => 10 | BarLabel _ => 11 | BarTicks _ => 12
  | BarTickLabels _ => 13 | Legend => 14 | AxisOff => 15 | Tight => 16 | Save _ _ _ => 17 | Show => 18 | Clear => 19
  end.
Fixpoint ascending (l : list nat) : Prop := match l with [] => True | x :: l => (forall y, In y l -> (x < y)%nat) /\ ascending l end.
Lemma asc_app l m : (forall x y, In x l -> In y m -> (x < y)%nat) -> ascending l -> ascending m -> ascending (l ++ m).
Proof.
  induction l as [|x l IH]; intros H HL HM; [exact HM|]. destruct HL as [H1 H2]. split; [|apply IH; [intros; apply H; [right|]; assumption|exact H2|exact HM]].
  intros y Hy. apply in_app_iff in Hy as [Hy|Hy]; [exact (H1 y Hy)|apply H; [left; reflexivity|exact Hy]].
Qed.
Fixpoint sortedb (l : list nat) : bool := match l with [] => true | x :: l => (forallb (Nat.ltb x) l && sortedb l)%bool end.
Lemma sortedb_spec l : sortedb l = true -> ascending l.
Proof.
  induction l as [|x l IH]; intros H; [exact I|]. cbn [sortedb] in H. apply Bool.andb_true_iff in H as [H1 H2]. split; [|exact (IH H2)].
  intros y Hy. rewrite forallb_forall in H1. apply Nat.ltb_lt. exact (H1 y Hy).
Qed.
Theorem C84_order : forall kw, ascending (map rank (figure_calls kw)).
Proof.
  intros kw. unfold figure_calls. destruct (pop_figure_kwargs kw) as [f r]. apply sortedb_spec.
  repeat match goal with |- context [when ?b _] => destruct b; cbn [when app map rank] end; reflexivity.
Qed.
Print Assumptions C84_order.

(** ** Failures of the drawing library *)
(** Whatever fails: what was done is the beginning of what was asked for, and nothing is done after a failure.  Only a colour map that is refused does not matter. *)
Lemma make_calls_spec lib todo : forall past, exists made left, todo = made ++ left /\ fst (make_calls lib past todo) = past ++ made /\
  match snd (make_calls lib past todo) with
  | None => left = [] /\ forall a c b, made = a ++ c :: b -> lib (past ++ a) c = None \/ (exists v, c = SetCmap v /\ lib (past ++ a) c = Some ValueErr)
  | Some e => exists a c, made = a ++ [c] /\ lib (past ++ a) c = Some e /\ ~ (exists v, c = SetCmap v /\ e = ValueErr)
  end.
Proof.
  induction todo as [|c todo IH]; intros past; [exists [], []; cbn; rewrite app_nil_r; repeat split; try reflexivity; intros [|x a] c b H; discriminate|].
  assert (lib past c = None \/ (exists v, c = SetCmap v /\ lib past c = Some ValueErr) ->
    exists made left, c :: todo = made ++ left /\ fst (make_calls lib (past ++ [c]) todo) = past ++ made /\
    match snd (make_calls lib (past ++ [c]) todo) with
    | None => left = [] /\ forall a c' b, made = a ++ c' :: b -> lib (past ++ a) c' = None \/ (exists v, c' = SetCmap v /\ lib (past ++ a) c' = Some ValueErr)
    | Some e => exists a c', made = a ++ [c'] /\ lib (past ++ a) c' = Some e /\ ~ (exists v, c' = SetCmap v /\ e = ValueErr)
    end) as K.
  { intros HC. destruct (IH (past ++ [c])) as (made & left & E1 & E2 & E3). exists (c :: made), left. rewrite E2, <- app_assoc. split; [cbn [app]; f_equal; exact E1|]. split; [reflexivity|].
    destruct (snd (make_calls lib (past ++ [c]) todo)) as [e|].
    - destruct E3 as (a & c' & -> & L & N). exists (c :: a), c'. rewrite <- app_assoc in L. auto.
    - destruct E3 as [-> E3]. split; [reflexivity|]. intros [|x a] c' b H.
      + injection H as <- _. rewrite app_nil_r. exact HC.
      + injection H as <- H. specialize (E3 a c' b H). rewrite <- app_assoc in E3. exact E3. }
  cbn [make_calls]. destruct (lib past c) as [e|] eqn:L; [|apply K; left; reflexivity].
  assert ((exists v, c = SetCmap v /\ e = ValueErr) \/ ~ (exists v, c = SetCmap v /\ e = ValueErr)) as [(v & -> & ->)|N].
  { destruct c; try (right; intros (v' & C & _); discriminate). destruct e; try (right; intros (v' & _ & C); discriminate). left. eauto. }
  - apply K. right. eauto.
  - assert ((match c, e with SetCmap _, ValueErr => make_calls lib (past ++ [c]) todo | _, _ => (past ++ [c], Some e) end) = (past ++ [c], Some e)) as ->.
    { destruct c; try reflexivity. destruct e; try reflexivity. destruct N. eauto. }
    exists [c], todo. cbn [fst snd app]. split; [reflexivity|]. split; [reflexivity|]. exists [], c. rewrite app_nil_r. auto.
Qed.
Theorem C84_failures : forall lib kw, exists made left, figure_calls kw = made ++ left /\ fst (graph lib kw) = made /\
  match snd (graph lib kw) with
  | None => left = [] /\ forall a c b, made = a ++ c :: b -> lib a c = None \/ (exists v, c = SetCmap v /\ lib a c = Some ValueErr)
  | Some e => exists a c, made = a ++ [c] /\ lib a c = Some e /\ ~ (exists v, c = SetCmap v /\ e = ValueErr)
  end.
Proof. intros lib kw. exact (make_calls_spec lib (figure_calls kw) []). Qed.
Print Assumptions C84_failures.
(** If the function fails there is no picture. *)
Theorem C84_drawing_fails : forall lib kw e, (forall kw', lib [] (Draw kw') = Some e) -> snd (graph lib kw) = Some e /\ forall p d t, ~ In (Save p d t) (fst (graph lib kw)).
Proof.
  intros lib kw e H. unfold graph, figure_calls. destruct (pop_figure_kwargs kw) as [f r]. cbn [app make_calls]. rewrite H. cbn [fst snd]. split; [reflexivity|]. intros p d t [C|[]]. discriminate.
Qed.
Print Assumptions C84_drawing_fails.

(** ** Refuted parts *)
(** The documented option 'no_axis' is not an option: it is passed to the function and the axes are drawn. *)
Theorem C84_no_axis_refuted : forall kw, ~ In "noaxis" (map fst kw) -> ~ In AxisOff (figure_calls (set "no_axis" (VBool true) kw)) /\
  exists kw' later, figure_calls (set "no_axis" (VBool true) kw) = Draw kw' :: later /\ get "no_axis" kw' = VBool true.
Proof.
  intros kw H. split.
  - intros C. apply C84_calls in C; [|intros; discriminate]. destruct C as (v & [[C _]|[_ C]] & T).
    + apply H. apply has_in in C. apply has_in. change (has "noaxis" (del "no_axis" kw) = true) in C. rewrite has_del in C. exact C.
    + cbn [options In] in C. repeat (destruct C as [E|C]; [first [discriminate E|injection E as <-; discriminate T]|]). destruct C.
  - destruct (C84_keywords (set "no_axis" (VBool true) kw)) as (kw' & later & E & _ & K). exists kw', later. split; [exact E|].
    assert (~ is_option "no_axis") as N by (intros (v & C); cbn [options In] in C; repeat (destruct C as [C|C]; [discriminate C|]); destruct C). rewrite (proj2 (K _ N)). reflexivity.
Qed.
Print Assumptions C84_no_axis_refuted.
(** The size of a figure is given in pixels ('dims'), but 300 dots per inch are always used for it, as 'dpi' does not reach the function; the picture is saved with 'dpi' of them.
    So it has the given size only with 300 dots per inch, and half of it by default. *)
Theorem C84_size : forall kw kw' w h path dpi t later, figure_calls kw = Draw kw' :: later -> get_or "dims" VNone kw = VTuple [VNum (Fin w); VNum (Fin h)] -> In (Save path (VInt dpi) t) later ->
  exists size, create_figure kw' = Ok (Some size, ZQ 300) /\ pixels size (ZQ dpi) = (w * ZQ dpi / ZQ 300, h * ZQ dpi / ZQ 300).
Proof.
  intros kw kw' w h path dpi t later E HD _. destruct (C84_keywords kw) as (kw2 & later2 & E' & K1 & K2). assert (kw2 = kw') as -> by congruence.
  assert (~ is_option "dims") as N by (intros (v & C); cbn [options In] in C; repeat (destruct C as [C|C]; [discriminate C|]); destruct C). destruct (K2 _ N) as [H1 H2].
  assert (get_or "dims" VNone kw' = VTuple [VNum (Fin w); VNum (Fin h)]) as D.
  { unfold get_or in *. rewrite H2. destruct (has "dims" kw) eqn:A; [|discriminate]. apply has_in in A. apply H1 in A. apply has_in in A. rewrite A. exact HD. }
  assert (get_or "dpi" (VInt 300) kw' = VInt 300) as P.
  { unfold get_or. destruct (has "dpi" kw') eqn:A; [|reflexivity]. apply has_in in A. destruct (K1 "dpi"); [opt|exact A]. }
  unfold create_figure. rewrite D, P. cbn [as_q]. replace (qeq (ZQ 300) 0) with false by reflexivity. eexists. split; [reflexivity|]. unfold pixels. cbn [fst snd]. f_equal; field; discriminate.
Qed.
Print Assumptions C84_size.
Theorem C84_size_refuted : exists kw kw' later size, figure_calls kw = Draw kw' :: later /\ get "dims" kw = VTuple [VNum (Fin (ZQ 600)); VNum (Fin (ZQ 300))] /\ setting kw "dpi" (VInt 150) /\
  create_figure kw' = Ok (Some size, ZQ 300) /\ In (Save (VText "a.png") (VInt 150) (VBool false)) later /\ pixels size (ZQ 150) = (ZQ 300, ZQ 150).
Proof.
  set (kw := [("dims", VTuple [VNum (Fin (ZQ 600)); VNum (Fin (ZQ 300))]); ("save_fig", VText "a.png")]).
  assert (setting kw "dpi" (VInt 150)) as HS by (right; split; [cbn; intuition discriminate|cbn; intuition]).
  destruct (C84_keywords kw) as (kw' & later & E & _).
  assert (In (Save (VText "a.png") (VInt 150) (VBool false)) later) as HI.
  { assert (In (Save (VText "a.png") (VInt 150) (VBool false)) (figure_calls kw)) as H by (cbn; intuition). rewrite E in H. destruct H as [H|H]; [discriminate|exact H]. }
  destruct (C84_size kw kw' (ZQ 600) (ZQ 300) _ _ _ later E eq_refl HI) as (size & E1 & E2).
  exists kw, kw', later, size. split; [exact E|]. split; [reflexivity|]. split; [exact HS|]. split; [exact E1|]. split; [exact HI|].
  rewrite E2. f_equal; apply Qc_is_canon; reflexivity.
Qed.
Print Assumptions C84_size_refuted.

(** ** Example *)
Example C84_ex : figure_calls [("title", VText "T"); ("color", VText "red"); ("save_fig", VText "a.png"); ("show", VBool false); ("colorbar", VBool true); ("cbarlabel", VText "M")] =
  [Draw [("color", VText "red")]; Title (VText "T"); XLabel (VText ""); YLabel (VText ""); XLim VNone; YLim VNone; Colorbar; BarLabel (VText "M"); Tight; Save (VText "a.png") (VInt 150) (VBool false); Clear].
Proof. reflexivity. Qed.
