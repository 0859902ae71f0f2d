(** C86: flow fields of series of files.  C87: maps of series of files. *)
From Coq Require Import String Ascii Reals Permutation.
From Verif.Base Require Import QcX QcR Res Np ListX Sort Sums Bytes.
From Verif.Model Require Import Click Figure Bins Flow Sample ViewFlow ViewFlowR ViewRuns.
From Verif.Model Require Utils Formats Simple Average InterfaceFiles Cli.
From Verif.Spec Require Import FlowSpec GridSpec FieldSpec ViewRunSpec.
From Verif.Proofs Require Import FlowP SampleP ViewFlowP.
From Verif.Props Require Import FigureProps.
From Verif.Props Require ViewFlowProps.
Local Open Scope string_scope.
Local Open Scope list_scope.
Local Notation length := List.length.

(** ** C86 *)
Lemma map_combine_fst {A B} : forall (l : list A) (m : list B), length l = length m -> map fst (combine l m) = l.
Proof. induction l as [|a l IH]; intros [|b m]; cbn; try discriminate; auto. intros [= H]. f_equal. apply IH. exact H. Qed.
Lemma named_field l f : named l f <-> field_of l = Some f.
Proof.
  split; [intros []; reflexivity|]. unfold field_of.
  repeat match goal with |- context [String.eqb l ?s] => destruct (String.eqb l s) eqn:?E; [apply String.eqb_eq in E; subst l; intros [= <-]; constructor|clear E] end. discriminate.
Qed.
(** The colours are those asked for, and every bin has one; the bins of the file stay in order, but for dissipation and evaporation they are sorted. *)
Theorem C86_colours data fi colour out : colour_data data fi colour = Ok out ->
  Permutation data (map fst out) /\ (forall b v, In (b, v) out -> coloured data fi colour b v) /\
  (~ In colour [Some "visc"; Some "evaporation"] -> map fst out = data).
Proof.
  assert (forall f : bin -> R, map fst (map (fun b => (b, f b)) data) = data) as Hm by (intros f; rewrite map_map; apply map_id).
  assert (forall (f : bin -> R) b v, In (b, v) (map (fun b => (b, f b)) data) -> v = f b) as Hv.
  { intros f b v H. apply in_map_iff in H. destruct H as (b' & [= <- <-] & _). reflexivity. }
  destruct colour as [c|]; cbn [colour_data].
  2:{ intros [= <-]. unfold ones. rewrite Hm. split; [apply Permutation_refl|]. split; [|reflexivity]. intros b v H. exact (Hv _ _ _ H). }
  destruct (String.eqb_spec c "flow") as [->|N1].
  { intros [= <-]. unfold flow_data. rewrite Hm. split; [apply Permutation_refl|]. split; [|reflexivity]. intros b v H. rewrite (Hv _ _ _ H).
    split; [intros _; exact (ViewFlowProps.C66_absolute b)|]. do 3 (split; [discriminate|]). split; [intros f Hf; inversion Hf|]. intros Hn. exfalso. apply Hn. cbn. auto. }
  destruct (String.eqb_spec c "visc") as [->|N2].
  { unfold visc_data. destruct (sample_viscous_dissipation data fi (Q2Qc (877 # 1000000)) bM) as [s r] eqn:E. destruct r as [vs|]; [|discriminate]. intros [= <-].
    assert (length s = length vs /\ Permutation data s) as [HL HP].
    { unfold sample_viscous_dissipation in E. destruct (f_shape fi) as [[nx ny]|]; [|discriminate]. destruct (f_spacing fi) as [[dx dy]|]; [|discriminate].
      set (g := grid _ _ _) in E. destruct (Nat.eqb (length (sort_bins data)) (Z.to_nat ny * Z.to_nat nx)) eqn:EL; [|discriminate].
      cbn [negb] in E. destruct (Nat.ltb (Z.to_nat nx) 3 || Nat.ltb (Z.to_nat ny) 3)%bool; [discriminate|].
      pose proof (f_equal fst E) as E1. pose proof (f_equal snd E) as E2. cbn [fst snd] in E1, E2. assert (vs = g) as -> by congruence. subst s. split; [|apply isort_perm].
      apply Nat.eqb_eq in EL. rewrite EL. unfold g. rewrite grid_length. reflexivity. }
    assert (map fst (combine s (map QR vs)) = s) as Hs by (apply map_combine_fst; rewrite map_length; exact HL). rewrite Hs.
    split; [exact HP|]. split; [|intros Hn; exfalso; apply Hn; cbn; auto]. intros b v H. split; [discriminate|]. split; [discriminate|].
    split; [|split; [discriminate|split; [intros f Hf; inversion Hf|intros Hn; exfalso; apply Hn; cbn; auto]]].
    intros _. apply In_nth_error in H. destruct H as (k & Hk). exists s, vs, k. split; [exact E|].
    assert (forall (l1 : list bin) (l2 : list R) k, nth_error (combine l1 l2) k = Some (b, v) -> nth_error l1 k = Some b /\ nth_error l2 k = Some v) as Hc.
    { clear. induction l1 as [|a l1 IH]; intros [|c l2] [|k]; cbn; try discriminate; [intros [= -> ->]; auto|apply IH]. }
    apply Hc in Hk. destruct Hk as [H1 H2]. split; [exact H1|]. rewrite nth_error_map in H2. destruct (nth_error vs k) as [q|]; [|discriminate]. exists q. split; [reflexivity|]. cbn in H2. congruence. }
  destruct (String.eqb_spec c "radial") as [->|N3].
  { destruct (sample_center_of_mass data) as [[x0 y0]|] eqn:EC; [|discriminate]. cbn [rbind fst snd]. intros [= <-]. rewrite Hm. split; [apply Permutation_refl|]. split; [|reflexivity].
    intros b v H. rewrite (Hv _ _ _ H). split; [discriminate|]. split; [|split; [discriminate|split; [discriminate|split; [intros f Hf; inversion Hf|intros Hn; exfalso; apply Hn; cbn; auto]]]].
    intros _. exists x0, y0. split; [exact EC|]. exact (ViewFlowProps.C66_clockwise x0 y0 b). }
  destruct (String.eqb_spec c "evaporation") as [->|N4].
  { unfold evaporation_data, add_evaporation. destruct (mass_gradients data fi) as [g|] eqn:EG; [|discriminate]. cbn [rbind]. intros [= <-]. rewrite !map_map. cbn [fst snd].
    assert (Permutation data (map fst g)) as HP.
    { unfold mass_gradients in EG. destruct (f_shape fi) as [[nx ny]|]; [|discriminate]. destruct (f_spacing fi) as [[dx dy]|]; [|discriminate].
      set (gr := grid _ _ _) in EG. destruct (Nat.eqb (length (sort_bins data)) (Z.to_nat ny * Z.to_nat nx)) eqn:EL; [|discriminate].
      cbn [negb] in EG. destruct (Nat.ltb (Z.to_nat nx) 2 || Nat.ltb (Z.to_nat ny) 2)%bool; [discriminate|]. assert (g = combine (sort_bins data) gr) as -> by congruence.
      rewrite map_combine_fst; [apply isort_perm|]. apply Nat.eqb_eq in EL. rewrite EL. unfold gr. rewrite grid_length. reflexivity. }
    split; [exact HP|]. split; [|intros Hn; exfalso; apply Hn; cbn; auto]. intros b v H. apply in_map_iff in H. destruct H as ([b' [gx gy]] & [= <- <-] & H).
    do 3 (split; [discriminate|]). split; [|split; [intros f Hf; inversion Hf|intros Hn; exfalso; apply Hn; cbn; auto]].
    intros _. exists g, gx, gy. split; [exact EG|]. split; [exact H|reflexivity]. }
  intros [= <-]. assert (~ In (Some c) [Some "visc"; Some "evaporation"]) as Hno by (cbn; intuition congruence).
  assert (forall v (b : bin), (c = "flow" -> speed b v) /\ (c = "radial" -> exists x0 y0, sample_center_of_mass data = Ok (x0, y0) /\ around x0 y0 b v) /\
    (c = "visc" -> exists s vs k, sample_viscous_dissipation data fi (Q2Qc (877 # 1000000)) bM = (s, Ok vs) /\ nth_error s k = Some b /\ exists q, nth_error vs k = Some q /\ v = QR q) /\
    (c = "evaporation" -> exists l gx gy, add_density_gradient data fi = Ok l /\ In (b, (gx, gy)) l /\ v = QR (bU b * gx + bV b * gy))) as Hn by (intuition congruence).
  destruct (field_of c) as [f|] eqn:Ef.
  - rewrite Hm. split; [apply Permutation_refl|]. split; [|reflexivity]. intros b v H. rewrite (Hv _ _ _ H). destruct (Hn (QR (f b)) b) as (A1 & A2 & A3 & A4). repeat (split; [assumption|]).
    split; [intros f' Hf; apply named_field in Hf; congruence|]. intros _ Hall. exfalso. apply (Hall f). apply named_field. exact Ef.
  - unfold ones. rewrite Hm. split; [apply Permutation_refl|]. split; [|reflexivity]. intros b v H. rewrite (Hv (fun _ => 1%R) _ _ H). destruct (Hn 1%R b) as (A1 & A2 & A3 & A4). repeat (split; [assumption|]).
    split; [intros f' Hf; apply named_field in Hf; congruence|]. reflexivity.
Qed.
Print Assumptions C86_colours.
(** The arrows are those of the bins with flow along both axes, inside the limits and not below the cutoff, in order and with their colours.  Missing: bins with
    flow along one axis only (C53_one_component_refuted). *)
Theorem C86_arrows_partial data clabel cutoff xlim ylim : data <> [] -> (forall l, clabel = Some l -> exists f, named l f) ->
  exists sel, arrows data clabel cutoff xlim ylim = Ok sel /\ selects (fun p => drawn clabel cutoff xlim ylim (fst p)) data sel.
Proof.
  intros Hne Hc.
  destruct (cut_system_ok (fun p : bin * R => bX (fst p)) data xlim Hne) as (px & EX & PX). destruct (cut_system_ok (fun p : bin * R => bY (fst p)) data ylim Hne) as (py & EY & PY).
  assert (exists pc, (forall q, match clabel with None => Ok (map q data) | Some l => do f <- of_option ValueErr (field_of l); do cc <- cut_system (map f (map fst data)) (cutoff, None); Ok (and_masks (map q data) cc) end =
      Ok (map (fun p => (q p && pc p)%bool) data)) /\
    forall p, In p data -> (pc p = true <-> forall l f, clabel = Some l -> named l f -> inside cutoff None (f (fst p)))) as (pc & EC & PC).
  { destruct clabel as [l|].
    - destruct (Hc l eq_refl) as (f & Hf). destruct (cut_system_ok (fun p : bin * R => f (fst p)) data (cutoff, None) Hne) as (pc & EC & PC). exists pc. split.
      + intros q. rewrite (proj1 (named_field l f) Hf). cbn [of_option rbind]. rewrite map_map, EC. cbn [rbind]. rewrite and_masks_map. reflexivity.
      + intros p Hp. rewrite (PC p Hp). cbn [fst snd]. split; [|intros I; apply (I l f eq_refl Hf)]. intros I l' f' [= <-] Hf'. apply named_field in Hf, Hf'. congruence.
    - exists (fun _ => true). split; [intros q; f_equal; apply map_ext; intros p; rewrite Bool.andb_true_r; reflexivity|]. intros p Hp. split; [discriminate|reflexivity]. }
  unfold arrows. cbv zeta. rewrite !map_map, EX. cbn [rbind]. rewrite EY. cbn [rbind]. rewrite !and_masks_map, EC. cbn [rbind].
  match goal with |- context [masked (map ?q data) data] => assert (masked (map q data) data = filter q data) as -> by (rewrite <- (map_id data) at 2; rewrite masked_map, map_id; reflexivity) end. eexists. split; [reflexivity|]. apply selects_of. intros p Hp. unfold drawn.
  rewrite !Bool.andb_true_iff, (PX p Hp), (PY p Hp), (PC p Hp), !Bool.negb_true_iff, !qeq_false. tauto.
Qed.
Print Assumptions C86_arrows_partial.
(** A keyword with two limits, each a number or None; (None, None) if it is not given. *)
Definition limit (v : option Qc) : val := match v with Some q => VNum (Fin q) | None => VNone end.
Definition limits (kw : kwargs) (k : string) (l : option Qc * option Qc) : Prop :=
  (In k (map fst kw) /\ get k kw = VTuple [limit (fst l); limit (snd l)]) \/ (~ In k (map fst kw) /\ l = (None, None)).
(** No size of the figure, or one of two numbers. *)
Definition sized (kw : kwargs) : Prop := ~ In "dims" (map fst kw) \/ get "dims" kw = VNone \/ exists w h, get "dims" kw = VTuple [VNum (Fin w); VNum (Fin h)].
Definition with_axis (kw : kwargs) : kwargs := set_default "axis" (VText "scaled") kw.
Definition lib_ok {A} (lib : A -> list call -> call -> option exn) (a : A) : Prop := forall past c, lib a past c = None.
(** The arrows [sel] are those for the file [fn], with their colours. *)
Definition pictured (fuel : nat) (d : Utils.disk) (clabel : option string) (cutoff : option Qc) (colour : option string) (xlim ylim : option Qc * option Qc) (fn : string) (sel : list (bin * R)) : Prop :=
  exists b fi out, InterfaceFiles.flow_file fuel (Average.content d fn) = Ok (b, fi) /\ b <> [] /\ colour_data b fi colour = Ok out /\
    selects (fun p => drawn clabel cutoff xlim ylim (fst p)) out sel.

Lemma pair_limits kw k l : limits kw k l -> pair_of k kw = Ok l.
Proof.
  intros H. unfold pair_of, get_or. destruct H as [[H E] | [H ->]].
  - apply has_in in H. rewrite H, E. destruct l as [[a|] [b|]]; reflexivity.
  - destruct (Click.has k kw) eqn:E; [|reflexivity]. apply has_in in E. contradiction.
Qed.
Lemma has_set k j v kw : Click.has k (set j v kw) = (String.eqb k j || Click.has k kw)%bool.
Proof. unfold set. change (Click.has k ((j, v) :: del j kw)) with (String.eqb k j || Click.has k (del j kw))%bool. rewrite has_del. destruct (String.eqb k j); reflexivity. Qed.
Lemma default_other k j v kw : k <> j -> Click.has k (set_default j v kw) = Click.has k kw /\ get k (set_default j v kw) = get k kw.
Proof.
  intros H. unfold set_default. destruct (Click.has j kw); [auto|]. rewrite has_set. destruct (String.eqb_spec k j); [contradiction|]. split; [reflexivity|].
  unfold set. cbn [get]. destruct (String.eqb_spec k j); [contradiction|]. apply get_del_other. exact H.
Qed.
Lemma limits_default k j v kw l : k <> j -> limits kw k l -> limits (set_default j v kw) k l.
Proof. intros H. destruct (default_other k j v kw H) as [E1 E2]. unfold limits. rewrite <- !has_in, E1, E2. auto. Qed.
Lemma sized_default j v kw : "dims" <> j -> sized kw -> sized (set_default j v kw).
Proof. intros H. destruct (default_other "dims" j v kw H) as [E1 E2]. unfold sized. rewrite <- !has_in, E1, E2. auto. Qed.
Lemma sized_ok kw : sized kw -> exists r, create_figure (snd (pop_figure_kwargs kw)) = Ok r.
Proof.
  intros H. rewrite pop_spec. cbn [snd].
  assert (~ In "dims" (map fst keys)) as N1 by (cbn; intuition discriminate).
  assert (Click.has "dims" (rest keys kw) = Click.has "dims" kw) as E1 by (rewrite rest_has; reflexivity). assert (Click.has "dpi" (rest keys kw) = false) as E2 by (rewrite rest_has; reflexivity).
  unfold create_figure, get_or. rewrite E1, E2, (rest_get keys "dims" kw N1). cbn [as_q].
  destruct H as [H | [-> | (w & h & ->)]].
  - destruct (Click.has "dims" kw) eqn:E; [apply has_in in E; contradiction|]. eexists; reflexivity.
  - destruct (Click.has "dims" kw); eexists; reflexivity.
  - destruct (Click.has "dims" kw); [|eexists; reflexivity]. cbn [as_q]. destruct (qeq (ZQ 300) 0) eqn:E; [apply qeq_true in E; discriminate E|]. eexists; reflexivity.
Qed.
Lemma graph_ok {A} (lib : A -> list call -> call -> option exn) a kw : lib_ok lib a -> graph (lib a) kw = (figure_calls kw, None).
Proof.
  intros H. unfold graph. assert (forall todo past, make_calls (lib a) past todo = (past ++ todo, None)) as G; [|exact (G _ [])].
  induction todo as [|c todo IH]; intros past; cbn [make_calls]; [rewrite app_nil_r; reflexivity|]. rewrite H, IH, <- app_assoc. reflexivity.
Qed.
Lemma figure_drawn {A} (lib : A -> list call -> call -> option exn) a kw : sized kw ->
  decorated lib kw (fun inner => do _ <- create_figure inner; Ok a) = (Some a, fst (graph (lib a) kw), snd (graph (lib a) kw)).
Proof. intros H. unfold decorated. destruct (sized_ok kw H) as (r & ->). cbn [rbind]. destruct (graph (lib a) kw); reflexivity. Qed.

Section FlowRun.
Variables (lib : list (bin * R) -> list call -> call -> option exn) (fuel : nat) (d : Utils.disk) (clabel : option string) (cutoff : option Qc) (colour : option string)
  (kw : kwargs) (xlim ylim : option Qc * option Qc).
Hypothesis Hc : forall l, clabel = Some l -> exists f, named l f.
Hypothesis Hx : limits kw "xlim" xlim.
Hypothesis Hy : limits kw "ylim" ylim.
Hypothesis Hs : sized kw.
Notation view := (view_flowfields lib fuel d clabel cutoff colour false kw).
Notation of_file := (pictured fuel d clabel cutoff colour xlim ylim).
Lemma colour_nonempty b fi out : b <> [] -> colour_data b fi colour = Ok out -> out <> [].
Proof. intros H E C. subst out. destruct (C86_colours _ _ _ _ E) as (HP & _). apply Permutation_sym, Permutation_nil in HP. contradiction. Qed.
Lemma selects_fun {A} (P : A -> Prop) l m m' : selects P l m -> selects P l m' -> m = m'.
Proof. intros H. revert m'. induction H; intros m' H'; inversion H'; subst; try contradiction; [reflexivity|f_equal|]; auto. Qed.
Lemma flow_prefix pre sels rest : Forall2 of_file pre sels -> (forall s, In s sels -> lib_ok lib s) ->
  view (pre ++ rest) = (map (fun s => (Some s, figure_calls (with_axis kw))) sels ++ fst (view rest), snd (view rest)).
Proof.
  intros H Hlib. unfold view_flowfields. fold (with_axis kw).
  assert (pair_of "xlim" (with_axis kw) = Ok xlim) as EX by (apply pair_limits, limits_default; [discriminate|exact Hx]).
  assert (pair_of "ylim" (with_axis kw) = Ok ylim) as EY by (apply pair_limits, limits_default; [discriminate|exact Hy]).
  assert (sized (with_axis kw)) as ES by (apply sized_default; [discriminate|exact Hs]).
  induction H as [|fn s pre sels (b & fi & out & E1 & Hb & E2 & HS) HF IH]; [cbn [app map]; destruct (flow_loop _ _ _ _ _ _ _ _ _); reflexivity|].
  cbn [app map flow_loop]. rewrite E1. cbn [rbind]. rewrite E2. cbn [rbind]. rewrite EX, EY. cbn [rbind].
  destruct (C86_arrows_partial out clabel cutoff xlim ylim (colour_nonempty _ _ _ Hb E2) Hc) as (s' & -> & HS'). rewrite (selects_fun _ _ _ _ HS' HS).
  rewrite figure_drawn by exact ES. rewrite graph_ok by (apply Hlib; left; reflexivity). cbn [fst snd].
  rewrite IH by (intros t Ht; apply Hlib; right; exact Ht). reflexivity.
Qed.
(** Every file has its figure, in order, with all its arrows and with the options of C84. *)
Theorem C86_run files sels : Forall2 of_file files sels -> (forall s, In s sels -> lib_ok lib s) ->
  view files = (map (fun s => (Some s, figure_calls (with_axis kw))) sels, None).
Proof. intros H Hl. rewrite <- (app_nil_r files). rewrite (flow_prefix files sels [] H Hl). cbn. rewrite app_nil_r. reflexivity. Qed.
(** A file which cannot be read, or for which the colours cannot be found, raises after the figures of the files before it. *)
Theorem C86_unreadable pre sels fn post e : Forall2 of_file pre sels -> (forall s, In s sels -> lib_ok lib s) ->
  (do (b, fi) <- InterfaceFiles.flow_file fuel (Average.content d fn); colour_data b fi colour) = Err e ->
  view (pre ++ fn :: post) = (map (fun s => (Some s, figure_calls (with_axis kw))) sels, Some e).
Proof. intros H Hl E. rewrite (flow_prefix pre sels _ H Hl). unfold view_flowfields at 1 2. cbn [flow_loop].
  assert ((do (b, fi) <- InterfaceFiles.flow_file fuel (Average.content d fn); do v <- colour_data b fi colour; Ok (v, fi)) = Err e) as ->.
  { destruct (InterfaceFiles.flow_file fuel (Average.content d fn)) as [[b fi]|err]; cbn [rbind] in E |- *; [rewrite E; reflexivity|congruence]. }
  cbn [fst snd]. rewrite app_nil_r. reflexivity.
Qed.
(** A figure which cannot be drawn or saved is the last one: no error is raised, and the files after it are not shown. *)
Theorem C86_stops pre sels fn s post e : Forall2 of_file pre sels -> (forall s, In s sels -> lib_ok lib s) -> of_file fn s -> snd (graph (lib s) (with_axis kw)) = Some e ->
  view (pre ++ fn :: post) = (map (fun s => (Some s, figure_calls (with_axis kw))) sels ++ [(Some s, fst (graph (lib s) (with_axis kw)))], None).
Proof.
  intros H Hl (b & fi & out & E1 & Hb & E2 & HS) E. rewrite (flow_prefix pre sels _ H Hl). unfold view_flowfields. fold (with_axis kw). cbn [flow_loop]. rewrite E1. cbn [rbind]. rewrite E2. cbn [rbind].
  assert (pair_of "xlim" (with_axis kw) = Ok xlim) as -> by (apply pair_limits, limits_default; [discriminate|exact Hx]).
  assert (pair_of "ylim" (with_axis kw) = Ok ylim) as -> by (apply pair_limits, limits_default; [discriminate|exact Hy]).
  assert (sized (with_axis kw)) as ES by (apply sized_default; [discriminate|exact Hs]). cbn [rbind].
  destruct (C86_arrows_partial out clabel cutoff xlim ylim (colour_nonempty _ _ _ Hb E2) Hc) as (s' & -> & HS'). rewrite (selects_fun _ _ _ _ HS' HS).
  rewrite figure_drawn by exact ES. rewrite E. reflexivity.
Qed.
End FlowRun.
Print Assumptions C86_run.
Print Assumptions C86_unreadable.
Print Assumptions C86_stops.
(** The bins which are arranged for stream lines are those in the box around the bins which reach the cutoff, within the limits which are given and not 0, in file order; they must fill a grid
    with, along each axis, two points more than whole spacings fit between the outermost bins in it which reach the cutoff. *)
Definition above (lim : option Qc) (v : Qc) : Prop := forall a, lim = Some a -> a <> 0 -> a <= v.
Definition below (lim : option Qc) (v : Qc) : Prop := forall a, lim = Some a -> a <> 0 -> v <= a.
(** [a] and [b] are the ends of the places of the bins for which [P] holds. *)
Definition ends (f : bin -> Qc) (P : bin -> Prop) (a b : Qc) : Prop := (exists c, P c /\ f c = a) /\ (exists c, P c /\ f c = b) /\ forall c, P c -> a <= f c <= b.
Definition grid_points (a b s : Qc) (n : Z) : Prop := exists k : nat, n = (Z.of_nat k + 2)%Z /\ NQ k * s <= b - a /\ b - a < NQ (S k) * s.
Lemma extent_spec g (p : bin -> bool) l e : extent g (filter p l) = Ok e -> ends g (fun c => In c l /\ p c = true) (fst e) (snd e).
Proof.
  unfold extent. destruct (list_min _) as [a|] eqn:E1; [|discriminate]. destruct (list_max _) as [b|] eqn:E2; [|discriminate]. intros [= <-]. cbn [fst snd].
  apply list_min_spec in E1 as [I1 L1]. apply list_max_spec in E2 as [I2 L2]. apply in_map_iff in I1 as (c1 & H1 & I1). apply in_map_iff in I2 as (c2 & H2 & I2). apply filter_In in I1, I2.
  split; [exists c1; auto|]. split; [exists c2; auto|]. intros c Hc. apply filter_In in Hc. split; [apply L1|apply L2]; apply in_map, Hc.
Qed.
Lemma limited_spec e lim v : fst (limited e lim) <= v /\ v <= snd (limited e lim) <-> (fst e <= v <= snd e /\ above (fst lim) v /\ below (snd lim) v).
Proof.
  unfold limited, above, below, nonzero. destruct lim as [lo hi]. cbn [fst snd].
  assert (forall o, match (match o with Some q => if qeq q 0 then None else Some q | None => None end) with Some w => qmax (fst e) w | None => fst e end <= v <-> fst e <= v /\ (forall a, o = Some a -> a <> 0 -> a <= v)) as ->.
  { intros [w|]; [|split; [intros H; split; [exact H|discriminate]|tauto]]. destruct (qeq w 0) eqn:E.
    - apply qeq_true in E. split; [intros H; split; [exact H|intros a [= <-] N; contradiction]|tauto].
    - assert (w <> 0) as N by (intros ->; vm_compute in E; discriminate). unfold qmax. destruct (qle (fst e) w) eqn:L; [apply qle_true in L|apply qle_false in L]; split.
      + intros H. split; [generalize dependent (fst e); generalize dependent (snd e); intros; qlra'|intros a [= <-] _; exact H].
      + intros [_ H]. apply H; [reflexivity|exact N].
      + intros H. split; [exact H|intros a [= <-] _; generalize dependent (fst e); intros; qlra'].
      + tauto. }
  assert (forall o, v <= match (match o with Some q => if qeq q 0 then None else Some q | None => None end) with Some w => qmin (snd e) w | None => snd e end <-> v <= snd e /\ (forall a, o = Some a -> a <> 0 -> v <= a)) as ->.
  { intros [w|]; [|split; [intros H; split; [exact H|discriminate]|tauto]]. destruct (qeq w 0) eqn:E.
    - apply qeq_true in E. split; [intros H; split; [exact H|intros a [= <-] N; contradiction]|tauto].
    - assert (w <> 0) as N by (intros ->; vm_compute in E; discriminate). unfold qmin. destruct (qle (snd e) w) eqn:L; [apply qle_true in L|apply qle_false in L]; split.
      + intros H. split; [exact H|intros a [= <-] _; generalize dependent (fst e); intros; qlra'].
      + tauto.
      + intros H. split; [generalize dependent (fst e); generalize dependent (snd e); intros; qlra'|intros a [= <-] _; exact H].
      + intros [_ H]. apply H; [reflexivity|exact N]. }
  tauto.
Qed.

Lemma points_spec a b s : 0 < s -> a <= b -> grid_points a b s (qtrunc ((b - a) / s) + 2).
Proof.
  intros Hs H. assert (0 <= (b - a) / s) as P by (apply qmult_nonneg; [qlra'|apply qc_lt_le, qinv_pos; exact Hs]). rewrite qtrunc_nonneg by exact P. destruct (qfloor_spec ((b - a) / s)) as [L U].
  assert (0 <= qfloor ((b - a) / s))%Z as Z0.
  { enough (-1 < qfloor ((b - a) / s))%Z by lia. apply ZQ_lt. generalize dependent (ZQ (qfloor ((b - a) / s))). generalize dependent ((b - a) / s). change (ZQ (-1)) with (- (1)). intros; qlra'. }
  exists (Z.to_nat (qfloor ((b - a) / s))). rewrite Z2Nat.id by exact Z0. split; [reflexivity|].
  rewrite NQ_S. assert (NQ (Z.to_nat (qfloor ((b - a) / s))) = ZQ (qfloor ((b - a) / s))) as -> by (unfold NQ; rewrite Z2Nat.id by exact Z0; reflexivity).
  set (n := ZQ _) in *. assert (b - a = (b - a) / s * s) as E by (field; intros ->; exact (Qclt_not_eq _ _ Hs eq_refl)). split; rewrite E.
  - apply Qcmult_le_compat_r; [exact L|apply qc_lt_le; exact Hs].
  - apply Qcmult_lt_compat_r; [exact Hs|exact U].
Qed.
Theorem C86_streamlines_box : forall data fi f cutoff xlim ylim box nx ny dx dy, Flow.f_spacing fi = Some (dx, dy) -> 0 < dx -> 0 < dy -> streamline_data data fi f cutoff xlim ylim = Ok (box, (nx, ny)) ->
  exists x0 x1 y0 y1, ends bX (fun c => In c data /\ cutoff <= f c) x0 x1 /\ ends bY (fun c => In c data /\ cutoff <= f c) y0 y1 /\
    (exists p, box = filter p data) /\
    (forall c, In c box <-> In c data /\ (x0 <= bX c <= x1 /\ above (fst xlim) (bX c) /\ below (snd xlim) (bX c)) /\ (y0 <= bY c <= y1 /\ above (fst ylim) (bY c) /\ below (snd ylim) (bY c))) /\
    exists a b c d, ends bX (fun e => In e box /\ cutoff <= f e) a b /\ ends bY (fun e => In e box /\ cutoff <= f e) c d /\
      grid_points a b dx nx /\ grid_points c d dy ny /\ Z.of_nat (List.length box) = (nx * ny)%Z.
Proof.
  intros data fi f cutoff xlim ylim box nx ny dx dy ES Hdx Hdy H. unfold streamline_data in H. rewrite ES in H. cbn [of_option rbind] in H.
  destruct (extent bX (filter _ data)) as [[x0 x1]|] eqn:E1; [|discriminate]. cbn [rbind] in H. destruct (extent bY (filter _ data)) as [[y0 y1]|] eqn:E2; [|discriminate]. cbn [rbind] in H.
  destruct (limited (x0, x1) xlim) as [l0 l1] eqn:L1. destruct (limited (y0, y1) ylim) as [m0 m1] eqn:L2. set (bx := filter _ data) in H.
  destruct (extent bX (filter _ bx)) as [[a b]|] eqn:E3; [|discriminate]. cbn [rbind] in H. destruct (extent bY (filter _ bx)) as [[c d]|] eqn:E4; [|discriminate]. cbn [rbind fst snd] in H.
  destruct (Z.eqb _ _) eqn:EZ in H; [|discriminate]. injection H as <- <- <-. apply Z.eqb_eq in EZ. cbn [fst snd] in *.
  assert (forall g l e, extent g (filter (fun b => qle cutoff (f b)) l) = Ok e -> ends g (fun c => In c l /\ cutoff <= f c) (fst e) (snd e)) as X.
  { intros g l e He. apply extent_spec in He. destruct He as ((u & (U1 & U2) & U3) & (v & (V1 & V2) & V3) & He). apply qle_true in U2, V2. split; [exists u; auto|]. split; [exists v; auto|]. intros w [W1 W2]. apply He. split; [exact W1|apply qle_true; exact W2]. }
  apply X in E1, E2, E3, E4. cbn [fst snd] in *. exists x0, x1, y0, y1. split; [exact E1|]. split; [exact E2|]. split; [eexists; reflexivity|]. split.
  - intros e. unfold bx. rewrite filter_In, !Bool.andb_true_iff, !qle_true. pose proof (limited_spec (x0, x1) xlim (bX e)) as A. pose proof (limited_spec (y0, y1) ylim (bY e)) as B. rewrite L1 in A. rewrite L2 in B. cbn [fst snd] in A, B. tauto.
  - exists a, b, c, d. split; [exact E3|]. split; [exact E4|]. assert (a <= b /\ c <= d) as [AB CD].
    { destruct E3 as ((u & U & <-) & _ & R3). destruct E4 as ((v & V & <-) & _ & R4). specialize (R3 _ U). specialize (R4 _ V). split; [exact (proj2 R3)|exact (proj2 R4)]. }
    split; [apply points_spec; assumption|]. split; [apply points_spec; assumption|]. symmetry. exact EZ.
Qed.
Print Assumptions C86_streamlines_box.
(** A limit of 0 is ignored: bins beyond it stay in the box. *)
Definition sl_map : list bin := map (fun p => mkBin (ZQ (fst (fst p))) (ZQ (snd (fst p))) 1 1 (ZQ (snd p)) 1 1)
  [(-1, -1, 1); (-1, 0, 0); (-1, 1, 0); (0, -1, 1); (0, 0, 0); (0, 1, 0); (1, -1, 0); (1, 0, 0); (1, 1, 1)]%Z.
Definition sl_info : Flow.finfo := Flow.mkFinfo (Some (3, 3)%Z) (Some (ZQ (-1), ZQ (-1))) (Some (1, 1)) (Some 9%Z).
Theorem C86_streamlines_zero_refuted : exists data fi cutoff xlim ylim box shape c, fst ylim = Some 0 /\ streamline_data data fi bM cutoff xlim ylim = Ok (box, shape) /\ In c box /\ bY c < 0.
Proof.
  exists sl_map, sl_info, 1, (None, Some (Q2Qc (1 # 2))), (Some 0, None). do 2 eexists. exists (mkBin (ZQ (-1)) (ZQ (-1)) 1 1 (ZQ 1) 1 1).
  split; [reflexivity|]. split; [vm_compute; reflexivity|]. split; [left; reflexivity|]. reflexivity.
Qed.
Print Assumptions C86_streamlines_zero_refuted.
(** Stream lines without a cutoff are never drawn, and no error is raised. *)
Theorem C86_streamlines_refuted lib fuel d clabel colour kw fn files b fi out : InterfaceFiles.flow_file fuel (Average.content d fn) = Ok (b, fi) -> colour_data b fi colour = Ok out ->
  view_flowfields lib fuel d clabel None colour true kw (fn :: files) = ([], None).
Proof. intros E1 E2. unfold view_flowfields. cbn [flow_loop]. rewrite E1. cbn [rbind]. rewrite E2. reflexivity. Qed.
Print Assumptions C86_streamlines_refuted.
Lemma filter_all {A} (p : A -> bool) l : (forall x, In x l -> p x = true) -> filter p l = l.
Proof. induction l as [|x l IH]; intros H; [reflexivity|]. cbn [filter]. rewrite (H x (or_introl eq_refl)), IH; [reflexivity|]. intros; apply H; right; assumption. Qed.
(** Nor are they for a cutoff which all bins of the map reach: the number of points along each axis is taken one too large. *)
Theorem C86_streamlines_cutoff_refuted lib fuel d l f cutoff colour kw fn files b fi out x0 y0 dx dy nx ny : named l f -> limits kw "xlim" (None, None) -> limits kw "ylim" (None, None) ->
  InterfaceFiles.flow_file fuel (Average.content d fn) = Ok (b, fi) -> Flow.f_spacing fi = Some (dx, dy) -> bins_on_grid b x0 y0 dx dy nx ny -> (0 < nx)%nat -> (0 < ny)%nat ->
  (forall c, In c b -> cutoff <= f c) -> colour_data b fi colour = Ok out ->
  view_flowfields lib fuel d (Some l) (Some cutoff) colour true kw (fn :: files) = ([], None).
Proof.
  intros Hf Hx Hy E1 ES HG Hnx Hny HC E2. unfold view_flowfields. fold (with_axis kw). cbn [flow_loop]. rewrite E1. cbn [rbind]. rewrite E2. cbn [rbind].
  enough (streamlines_end out fi (Some l) (Some cutoff) (with_axis kw) = None) as -> by reflexivity.
  unfold streamlines_end.
  assert (pair_of "xlim" (with_axis kw) = Ok (None, None)) as -> by (apply pair_limits, limits_default; [discriminate|exact Hx]).
  assert (pair_of "ylim" (with_axis kw) = Ok (None, None)) as -> by (apply pair_limits, limits_default; [discriminate|exact Hy]).
  apply named_field in Hf. rewrite Hf. cbn [rbind of_option]. unfold streamline_data. rewrite ES. cbn [rbind of_option].
  destruct (C86_colours _ _ _ _ E2) as (HP & _). set (data := map fst out) in *.
  assert (filter (fun b => qle cutoff (f b)) data = data) as EF.
  { assert (forall c, In c data -> cutoff <= f c) as H by (intros c Hc; apply HC; apply (Permutation_in _ (Permutation_sym HP) Hc)).
    clear -H. induction data as [|c data IH]; [reflexivity|]. cbn [filter]. rewrite (proj2 (qle_true _ _) (H c (or_introl eq_refl))), IH; [reflexivity|]. intros; apply H; right; assumption. }
  pose proof HG as (Hdx & Hdy & HL & H4).
  assert (extent bX data = Ok (x0, x0 + NQ (nx - 1) * dx) /\ extent bY data = Ok (y0, y0 + NQ (ny - 1) * dy)) as [EX EY].
  { unfold extent.
    assert (forall c, In c data <-> In c b) as HD by (intros c; split; apply Permutation_in; [apply Permutation_sym|]; exact HP).
    assert (forall c, In c b -> exists i j, (i < nx)%nat /\ (j < ny)%nat /\ bX c = x0 + NQ i * dx /\ bY c = y0 + NQ j * dy) as HB.
    { intros c Hc. apply (Permutation_in _ (grid_permutation b x0 y0 dx dy nx ny HG)) in Hc. apply in_grid in Hc. destruct Hc as (j & i & Hj & Hi & ->).
      exists i, j. destruct (pt_spec b x0 y0 dx dy nx ny HG i j Hi Hj) as (_ & X & Y). auto. }
    assert (forall z s n k, 0 < s -> (k < n)%nat -> z <= z + NQ k * s /\ z + NQ k * s <= z + NQ (n - 1) * s) as HM.
    { intros z s n k Hs0 Hk. split.
      - pose proof (qmult_nonneg _ _ (NQ_nonneg k) (qc_lt_le _ _ Hs0)) as K. generalize dependent (NQ k * s). intros; qlra'.
      - destruct (Nat.eq_dec k (n - 1)) as [->|N]; [apply Qcle_refl|]. apply qc_lt_le. apply coord_lt; [exact Hs0|lia]. }
    destruct (H4 0%nat 0%nat Hnx Hny) as (c0 & Hc0 & X0 & Y0). destruct (H4 (nx - 1)%nat (ny - 1)%nat) as (c1 & Hc1 & X1 & Y1); [lia|lia|].
    rewrite NQ_0 in X0, Y0. replace (x0 + 0 * dx) with x0 in X0 by ring. replace (y0 + 0 * dy) with y0 in Y0 by ring.
    assert (list_min (map bX data) = Some x0) as ->.
    { apply list_min_spec. split; [rewrite <- X0; apply in_map, HD; exact Hc0|]. intros v Hv. apply in_map_iff in Hv. destruct Hv as (c & <- & Hc). apply HD, HB in Hc. destruct Hc as (i & j & Hi & Hj & -> & _). apply (HM x0 dx nx i Hdx Hi). }
    assert (list_max (map bX data) = Some (x0 + NQ (nx - 1) * dx)) as ->.
    { apply list_max_spec. split; [rewrite <- X1; apply in_map, HD; exact Hc1|]. intros v Hv. apply in_map_iff in Hv. destruct Hv as (c & <- & Hc). apply HD, HB in Hc. destruct Hc as (i & j & Hi & Hj & -> & _). apply (HM x0 dx nx i Hdx Hi). }
    assert (list_min (map bY data) = Some y0) as ->.
    { apply list_min_spec. split; [rewrite <- Y0; apply in_map, HD; exact Hc0|]. intros v Hv. apply in_map_iff in Hv. destruct Hv as (c & <- & Hc). apply HD, HB in Hc. destruct Hc as (i & j & Hi & Hj & _ & ->). apply (HM y0 dy ny j Hdy Hj). }
    assert (list_max (map bY data) = Some (y0 + NQ (ny - 1) * dy)) as ->; [|split; reflexivity].
    apply list_max_spec. split; [rewrite <- Y1; apply in_map, HD; exact Hc1|]. intros v Hv. apply in_map_iff in Hv. destruct Hv as (c & <- & Hc). apply HD, HB in Hc. destruct Hc as (i & j & Hi & Hj & _ & ->). apply (HM y0 dy ny j Hdy Hj). }
  rewrite EF, EX, EY. cbn [rbind limited nonzero fst snd].
  assert (filter (fun b => (qle x0 (bX b) && qle (bX b) (x0 + NQ (nx - 1) * dx) && qle y0 (bY b) && qle (bY b) (y0 + NQ (ny - 1) * dy))%bool) data = data) as ->.
  { unfold extent in EX, EY.
    destruct (list_min (map bX data)) as [a|] eqn:A; [|discriminate]. destruct (list_max (map bX data)) as [a'|] eqn:A'; [|discriminate]. injection EX as <- <-.
    destruct (list_min (map bY data)) as [c|] eqn:C; [|discriminate]. destruct (list_max (map bY data)) as [c'|] eqn:C'; [|discriminate]. injection EY as <- <-.
    apply list_min_spec in A, C. apply list_max_spec in A', C'. destruct A as [_ A], A' as [_ A'], C as [_ C], C' as [_ C'].
    apply filter_all. intros p Hp. rewrite !Bool.andb_true_iff, !qle_true. split; [split; [split|]|]; [apply A|apply A'|apply C|apply C']; apply in_map; exact Hp. }
  rewrite EF, EX, EY. cbn [rbind fst snd].
  destruct (Z.eqb_spec (fst (streamline_shape x0 (x0 + NQ (nx - 1) * dx) y0 (y0 + NQ (ny - 1) * dy) dx dy) * snd (streamline_shape x0 (x0 + NQ (nx - 1) * dx) y0 (y0 + NQ (ny - 1) * dy) dx dy)) (Z.of_nat (List.length data))) as [E|_]; [|reflexivity].
  exfalso. apply (ViewFlowProps.C67_streamlines_refuted x0 y0 dx dy nx ny Hdx Hdy Hnx Hny). rewrite E, <- (Permutation_length HP), HL. f_equal. lia.
Qed.
Print Assumptions C86_streamlines_cutoff_refuted.
(** All figures are saved as the same file: of two files only the second figure remains. *)
Theorem C86_saved_refuted lib fuel d clabel cutoff colour kw xlim ylim fn1 fn2 s1 s2 path : (forall l, clabel = Some l -> exists f, named l f) -> limits kw "xlim" xlim -> limits kw "ylim" ylim -> sized kw ->
  pictured fuel d clabel cutoff colour xlim ylim fn1 s1 -> pictured fuel d clabel cutoff colour xlim ylim fn2 s2 -> (forall s, lib_ok lib s) -> In ("save_fig", VText path) kw -> NoDup (map fst kw) ->
  exists c1 c2, view_flowfields lib fuel d clabel cutoff colour false kw [fn1; fn2] = ([(Some s1, c1); (Some s2, c2)], None) /\
    exists dpi t, In (Save (VText path) dpi t) c1 /\ In (Save (VText path) dpi t) c2.
Proof.
  intros Hc Hx Hy Hs H1 H2 Hl HI HN. eexists _, _. split.
  { exact (C86_run lib fuel d clabel cutoff colour kw xlim ylim Hc Hx Hy Hs [fn1; fn2] [s1; s2] (Forall2_cons _ _ H1 (Forall2_cons _ _ H2 (Forall2_nil _))) (fun s _ => Hl s)). }
  assert (Click.has "save_fig" kw = true /\ get "save_fig" kw = VText path) as [E1 E2].
  { split; [apply FigureProps.has_in; apply (in_map fst) in HI; exact HI|]. clear -HI HN. induction kw as [|[k v] kw IH]; [destruct HI|]. cbn [get]. destruct HI as [E|HI].
    - injection E as -> ->. rewrite String.eqb_refl. reflexivity.
    - inversion HN; subst. destruct (String.eqb_spec "save_fig" k) as [<-|N]; [exfalso; apply H1; apply (in_map fst) in HI; exact HI|auto]. }
  destruct (default_other "save_fig" "axis" (VText "scaled") kw) as [E1' E2']; [discriminate|].
  assert (get "save_fig" (popped keys (with_axis kw)) = VText path) as E3.
  { transitivity (get_or "save_fig" VNone (with_axis kw)); [reflexivity|]. unfold get_or, with_axis. rewrite E1', E1, E2', E2. reflexivity. }
  assert (exists dpi t, In (Save (VText path) dpi t) (figure_calls (with_axis kw))) as (dpi & t & HI').
  { unfold figure_calls. rewrite pop_spec. exists (get "dpi" (popped keys (with_axis kw))), (get "transparent" (popped keys (with_axis kw))).
    repeat first [rewrite in_app_iff | rewrite in_when]. rewrite E3. cbn [is_none negb In]. intuition. }
  eauto.
Qed.
Print Assumptions C86_saved_refuted.

(** Two maps of 2 x 2 bins in plain files. *)
Definition fbin (x y u v m : Z) : bin := mkBin (ZQ x) (ZQ y) 1 1 (ZQ m) (ZQ u) (ZQ v).
Definition ex_text (b : list bin) : string :=
  match Simple.simple_write false [("X", map bX b); ("Y", map bY b); ("N", map bN b); ("T", map bT b); ("M", map bM b); ("U", map bU b); ("V", map bV b)]%string with
  | Ok f => string_of_list_ascii f | Err _ => ""%string end.
Definition ex_first : list bin := [fbin 0 0 1 2 4; fbin 0 1 1 1 1; fbin 1 0 3 4 6; fbin 1 1 0 1 5].
Definition ex_second : list bin := [fbin 0 0 0 0 4; fbin 0 1 2 1 3; fbin 1 0 3 1 6; fbin 1 1 1 1 5].
Definition ex_disk : Utils.disk := {| Utils.files := [(Formats.os_path "a.dat", ex_text ex_first); (Formats.os_path "b.dat", ex_text ex_second)]; Utils.dirs := [] |}.
Definition ex_fi : finfo := Eval vm_compute in match InterfaceFiles.flow_file 60 (Average.content ex_disk "a.dat") with Ok m => snd m | Err _ => mkFinfo None None None None end.
Definition withM (l : list bin) : list (bin * R) := map (fun b => (b, QR (bM b))) l.
Definition ex_kw : kwargs := [("xlim", VTuple [VNone; VNum (Fin (ZQ 2))]); ("save_fig", VText "a.png")].
Lemma ex_first_read : InterfaceFiles.flow_file 60 (Average.content ex_disk "a.dat") = Ok (ex_first, ex_fi).
Proof. vm_compute. reflexivity. Qed.
Lemma ex_second_read : InterfaceFiles.flow_file 60 (Average.content ex_disk "b.dat") = Ok (ex_second, ex_fi).
Proof. vm_compute. reflexivity. Qed.
Ltac in_q := split; intros q [= <-]; apply qle_true; vm_compute; reflexivity.
Ltac yes_drawn := split; [discriminate|]; split; [discriminate|]; split; [in_q|]; split; [in_q|]; intros l f [= <-] Hf; inversion Hf; subst; in_q.
Ltac not_drawn := intros (D1 & D2 & _ & _ & D3); first [apply D1; reflexivity | apply D2; reflexivity | destruct (D3 _ _ eq_refl named_m) as [D _]; specialize (D _ eq_refl); apply qle_true in D; vm_compute in D; discriminate D].
Example C86_ex lib : (forall s, lib_ok lib s) ->
  view_flowfields lib 60 ex_disk (Some "M") (Some (ZQ 3)) (Some "M") false ex_kw ["a.dat"; "b.dat"] =
  ([(Some (withM [fbin 0 0 1 2 4; fbin 1 0 3 4 6]), figure_calls (with_axis ex_kw)); (Some (withM [fbin 0 1 2 1 3; fbin 1 0 3 1 6; fbin 1 1 1 1 5]), figure_calls (with_axis ex_kw))], None).
Proof.
  intros Hl. apply (C86_run lib 60 ex_disk (Some "M") (Some (ZQ 3)) (Some "M") ex_kw (None, Some (ZQ 2)) (None, None)) with (sels := [_; _]).
  - intros l [= <-]. eexists. constructor.
  - left. split; [left; reflexivity|reflexivity].
  - right. split; [cbn; intuition discriminate|reflexivity].
  - left. cbn; intuition discriminate.
  - constructor; [|constructor; [|constructor]].
    + exists ex_first, ex_fi, (withM ex_first). split; [exact ex_first_read|]. split; [discriminate|]. split; [reflexivity|]. unfold withM, ex_first. cbn [map].
      apply sel_keep; [yes_drawn|apply sel_drop; [not_drawn|apply sel_keep; [yes_drawn|apply sel_drop; [not_drawn|apply sel_nil]]]].
    + exists ex_second, ex_fi, (withM ex_second). split; [exact ex_second_read|]. split; [discriminate|]. split; [reflexivity|]. unfold withM, ex_second. cbn [map].
      apply sel_drop; [not_drawn|apply sel_keep; [yes_drawn|apply sel_keep; [yes_drawn|apply sel_keep; [yes_drawn|apply sel_nil]]]].
  - intros s _. apply Hl.
Qed.
Lemma ex_grid_first : bins_on_grid ex_first 0 0 1 1 2 2.
Proof.
  split; [reflexivity|]. split; [reflexivity|]. split; [reflexivity|]. intros i j Hi Hj. exists (nth (i * 2 + j) ex_first bin0).
  destruct i as [|[|i]]; [| |lia]; (destruct j as [|[|j]]; [| |lia]); (split; [cbn [nth Nat.mul Nat.add ex_first In]; tauto|split; apply Qc_is_canon; reflexivity]).
Qed.
(** All bins of the first map have a mass of at least 1: no stream lines. *)
Example C86_ex_streamlines lib : view_flowfields lib 60 ex_disk (Some "M") (Some 1) (Some "M") true [("save_fig", VText "a.png")] ["a.dat"; "b.dat"] = ([], None).
Proof.
  apply (C86_streamlines_cutoff_refuted lib 60 ex_disk "M" bM 1 (Some "M") _ "a.dat" ["b.dat"] ex_first ex_fi (withM ex_first) 0 0 1 1 2 2).
  - constructor.
  - right. split; [cbn; intuition discriminate|reflexivity].
  - right. split; [cbn; intuition discriminate|reflexivity].
  - exact ex_first_read.
  - reflexivity.
  - exact ex_grid_first.
  - lia.
  - lia.
  - intros c Hc. apply qle_true. cbn [ex_first In] in Hc. repeat (destruct Hc as [<- | Hc]; [reflexivity|]). destruct Hc.
  - reflexivity.
Qed.
