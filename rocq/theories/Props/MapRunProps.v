(** C87: maps of series of files. *)
From Coq Require Import String Ascii Reals Qreals Permutation.
From Verif.Base Require Import QcX QcR Res Np ListX Sort Sums Bytes.
From Verif.Model Require Import Click Figure Bins Flow Sample ViewFlow ViewFlowR ViewRuns.
From Verif.Model Require Utils Formats Simple Average InterfaceFiles Cli.
From Verif.Spec Require Import FlowSpec GridSpec FieldSpec ViewRunSpec.
From Verif.Proofs Require Import FlowP SampleP ViewFlowP.
From Verif.Props Require Import FigureProps ViewRunProps.
From Verif.Props Require ViewFlowProps.
From Coq Require Import Lra.
Local Open Scope string_scope.
Local Open Scope list_scope.
Local Notation length := List.length.

(** The values are those of the field asked for, and every bin has one; the bins stay in order for fields of the file and the speed. *)
Lemma visc_spec data fi out : visc_data data fi = Ok out -> Permutation data (map fst out) /\
  forall b v, In (b, v) out -> exists s vs k, sample_viscous_dissipation data fi (Q2Qc (877 # 1000000)) bM = (s, Ok vs) /\ nth_error s k = Some b /\ exists q, nth_error vs k = Some q /\ v = QR q.
Proof.
  intros E. destruct (C86_colours data fi (Some "visc") out) as (HP & H & _); [exact E|]. split; [exact HP|]. intros b v Hb. destruct (H b v Hb) as (_ & _ & H' & _). apply H'. reflexivity.
Qed.
Lemma evap_spec data fi out : evaporation_data data fi = Ok out -> Permutation data (map fst out) /\
  forall b v, In (b, v) out -> exists l gx gy, add_density_gradient data fi = Ok l /\ In (b, (gx, gy)) l /\ v = QR (bU b * gx + bV b * gy).
Proof.
  intros E. destruct (C86_colours data fi (Some "evaporation") out) as (HP & H & _); [exact E|]. split; [exact HP|]. intros b v Hb. destruct (H b v Hb) as (_ & _ & _ & H' & _). apply H'. reflexivity.
Qed.
Lemma gradient_perm data fi g : add_density_gradient data fi = Ok g -> Permutation data (map fst g).
Proof.
  intros E. assert (evaporation_data data fi = Ok (map (fun p : bin * (Qc * Qc) => (fst p, QR (bU (fst p) * fst (snd p) + bV (fst p) * snd (snd p)))) g)) as E'.
  { unfold evaporation_data, add_evaporation. change (mass_gradients data fi) with (add_density_gradient data fi). rewrite E. cbn [rbind]. rewrite map_map. reflexivity. }
  destruct (evap_spec _ _ _ E') as [HP _]. rewrite map_map in HP. exact HP.
Qed.
Lemma map_fst_id {A} (f : bin -> A) data : map fst (map (fun b => (b, f b)) data) = data.
Proof. rewrite map_map. apply map_id. Qed.
Lemma in_paired {A} (f : bin -> A) data b v : In (b, v) (map (fun b => (b, f b)) data) -> v = f b.
Proof. intros H. apply in_map_iff in H. destruct H as (b' & [= <- <-] & _). reflexivity. Qed.
(** The values are those of the field asked for, and every bin has one; the bins stay in order for the speed and for the fields of the file. *)
Theorem C87_values data fi label l out : map_data data fi label = Ok (l, inl out) ->
  Permutation data (map fst out) /\ (forall b v, In (b, v) out -> valued data fi label b v) /\
  (label = "flow" \/ (exists f, named label f) -> map fst out = data).
Proof.
  unfold map_data.
  destruct (String.eqb_spec label "flow") as [->|N1].
  { intros [= <- <-]. unfold flow_data. rewrite map_fst_id. split; [apply Permutation_refl|]. split; [|reflexivity]. intros b v H. rewrite (in_paired _ _ _ _ H).
    split; [intros _; exact (ViewFlowProps.C66_absolute b)|]. do 4 (split; [discriminate|]). intros f Hf; inversion Hf. }
  destruct (String.eqb_spec label "visc_diss") as [->|N2].
  { destruct (visc_data data fi) as [v0|] eqn:E; [|discriminate]. cbn [rbind]. intros [= <- <-]. destruct (visc_spec _ _ _ E) as [HP H]. split; [exact HP|].
    split; [|intros [C | [f C]]; [discriminate|inversion C]]. intros b v Hb. split; [discriminate|]. split; [intros _; exact (H b v Hb)|]. do 3 (split; [discriminate|]). intros f Hf; inversion Hf. }
  destruct (String.eqb_spec label "evaporation") as [->|N3].
  { destruct (evaporation_data data fi) as [v0|] eqn:E; [|discriminate]. cbn [rbind]. intros [= <- <-]. destruct (evap_spec _ _ _ E) as [HP H]. split; [exact HP|].
    split; [|intros [C | [f C]]; [discriminate|inversion C]]. intros b v Hb. do 2 (split; [discriminate|]). split; [intros _; exact (H b v Hb)|]. do 2 (split; [discriminate|]). intros f Hf; inversion Hf. }
  destruct (String.eqb_spec label "grad_rho_x") as [->|N4].
  { unfold gradient_data. destruct (add_density_gradient data fi) as [g|] eqn:E; [|discriminate]. cbn [rbind]. intros [= <- <-]. rewrite map_map. cbn [fst]. split; [exact (gradient_perm _ _ _ E)|].
    split; [|intros [C | [f C]]; [discriminate|inversion C]]. intros b v Hb. apply in_map_iff in Hb. destruct Hb as ([b' [gx gy]] & [= <- <-] & Hb).
    do 3 (split; [discriminate|]). split; [intros _; exists g, gx, gy; auto|]. split; [discriminate|]. intros f Hf; inversion Hf. }
  destruct (String.eqb_spec label "grad_rho_y") as [->|N5].
  { unfold gradient_data. destruct (add_density_gradient data fi) as [g|] eqn:E; [|discriminate]. cbn [rbind]. intros [= <- <-]. rewrite map_map. cbn [fst]. split; [exact (gradient_perm _ _ _ E)|].
    split; [|intros [C | [f C]]; [discriminate|inversion C]]. intros b v Hb. apply in_map_iff in Hb. destruct Hb as ([b' [gx gy]] & [= <- <-] & Hb).
    do 4 (split; [discriminate|]). split; [intros _; exists g, gx, gy; auto|]. intros f Hf; inversion Hf. }
  destruct (field_of label) as [f|] eqn:Ef; [|discriminate]. intros [= <- <-]. rewrite map_fst_id. split; [apply Permutation_refl|]. split; [|reflexivity].
  intros b v H. rewrite (in_paired _ _ _ _ H). do 5 (split; [congruence|]). intros f' Hf. apply named_field in Hf. congruence.
Qed.
Print Assumptions C87_values.

(** ** Files *)
(** The file has a map on a grid. *)
Record gridded (fuel : nat) (d : Utils.disk) (fn : string) (b : list bin) (fi : finfo) (x0 y0 dx dy : Qc) (nx ny : nat) : Prop := {
  g_read : InterfaceFiles.flow_file fuel (Average.content d fn) = Ok (b, fi);
  g_shape : f_shape fi = Some (Z.of_nat nx, Z.of_nat ny);
  g_spacing : f_spacing fi = Some (dx, dy);
  g_bins : bins_on_grid b x0 y0 dx dy nx ny;
  g_size : (0 < nx /\ 0 < ny)%nat }.
(** It is large enough for the derived fields: second order differences for the dissipation, first order ones for gradients. *)
Definition enough (label : string) (nx ny : nat) : Prop :=
  (label = "visc_diss" -> 3 <= nx /\ 3 <= ny)%nat /\ (In label ["evaporation"; "grad_rho_x"; "grad_rho_y"] -> 2 <= nx /\ 2 <= ny)%nat.
Definition next_label (label : string) : string := if label =? "visc_diss" then "visc" else label.
Lemma data_ok fuel d fn b fi x0 y0 dx dy nx ny label : gridded fuel d fn b fi x0 y0 dx dy nx ny -> known_field label -> enough label nx ny ->
  exists out, map_data b fi label = Ok (next_label label, inl out).
Proof.
  intros [E1 ES EP HG _] HK [H1 H2]. assert (length (sort_bins b) = (ny * nx)%nat) as HL by (unfold sort_bins; rewrite <- (Permutation_length (isort_perm _ b)); apply HG).
  assert ((2 <= nx /\ 2 <= ny)%nat -> exists g, add_density_gradient b fi = Ok g) as HG2.
  { intros [A1 A2]. unfold add_density_gradient, mass_gradients. rewrite ES, EP. cbv zeta. rewrite HL, !Nat2Z.id, Nat.eqb_refl. cbn [negb].
    destruct (Nat.ltb_spec nx 2); [lia|]. destruct (Nat.ltb_spec ny 2); [lia|]. cbn [orb]. eexists; reflexivity. }
  assert ((3 <= nx /\ 3 <= ny)%nat -> exists g, visc_data b fi = Ok g) as HV.
  { intros [A1 A2]. unfold visc_data, sample_viscous_dissipation. rewrite ES, EP. cbv zeta. rewrite HL, !Nat2Z.id, Nat.eqb_refl. cbn [negb].
    destruct (Nat.ltb_spec nx 3); [lia|]. destruct (Nat.ltb_spec ny 3); [lia|]. cbn [orb]. eexists; reflexivity. }
  unfold map_data, next_label.
  destruct (String.eqb_spec label "flow") as [->|N1]; [eexists; reflexivity|].
  destruct (String.eqb_spec label "visc_diss") as [->|N2]; [destruct (HV (H1 eq_refl)) as (g & ->); eexists; reflexivity|].
  destruct (String.eqb_spec label "evaporation") as [->|N3].
  { destruct HG2 as (g & E); [apply H2; cbn; auto|]. unfold evaporation_data, add_evaporation. change (mass_gradients b fi) with (add_density_gradient b fi). rewrite E. eexists; reflexivity. }
  destruct (String.eqb_spec label "grad_rho_x") as [->|N4]; [destruct HG2 as (g & E); [apply H2; cbn; auto|]; unfold gradient_data; rewrite E; eexists; reflexivity|].
  destruct (String.eqb_spec label "grad_rho_y") as [->|N5]; [destruct HG2 as (g & E); [apply H2; cbn; auto|]; unfold gradient_data; rewrite E; eexists; reflexivity|].
  destruct HK as [[f Hf] | HK]; [apply named_field in Hf; rewrite Hf; eexists; reflexivity|]. cbn in HK. intuition congruence.
Qed.
Lemma grid_perm_ok b b' x0 y0 dx dy nx ny : Permutation b b' -> bins_on_grid b x0 y0 dx dy nx ny -> bins_on_grid b' x0 y0 dx dy nx ny.
Proof.
  intros HP (H1 & H2 & H3 & H4). split; [exact H1|]. split; [exact H2|]. split; [rewrite <- (Permutation_length HP); exact H3|].
  intros i j Hi Hj. destruct (H4 i j Hi Hj) as (c & Hc & E). exists c. split; [apply (Permutation_in _ HP Hc)|exact E].
Qed.
(** In a histogram of a grid of bins every cell has the value of its bin. *)
Lemma hist_of_ok (out : list (bin * R)) x0 y0 dx dy nx ny i j b v : bins_on_grid (map fst out) x0 y0 dx dy nx ny -> (i < nx)%nat -> (j < ny)%nat -> In (b, v) out ->
  bX b = x0 + NQ i * dx -> bY b = y0 + NQ j * dy -> hist_of out (Z.of_nat nx, Z.of_nat ny) i j = v.
Proof.
  intros HG Hi Hj Hb EX EY.
  pose proof (height_ok (map fst out) x0 y0 dx dy nx ny (fun _ => 1) i j b HG Hi Hj (in_map fst _ _ Hb) EX EY) as H1.
  unfold height_map, hist2d in H1. cbn [fst snd] in H1. rewrite !map_map in H1. cbn [fst snd] in H1.
  unfold hist_of. cbn [fst snd]. rewrite !Nat2Z.id.
  set (rx := hist_range (map (fun p : bin * R => bX (fst p)) out)) in *. set (ry := hist_range (map (fun p : bin * R => bY (fst p)) out)) in *.
  rewrite qsum_filter, map_map in H1. cbn [fst snd] in H1.
  set (q := fun p : bin * R => (Z.eqb (hist_cell (fst rx) (snd rx) nx (bX (fst p))) (Z.of_nat i) && Z.eqb (hist_cell (fst ry) (snd ry) ny (bY (fst p))) (Z.of_nat j))%bool).
  assert (qsum (map (fun p => if q p then 1 else 0) out) = 1) as H2 by exact H1. clear H1.
  assert (length (filter q out) = 1%nat) as HL.
  { assert (forall l, qsum (map (fun p => if q p then 1 else 0) l) = NQ (length (filter q l))) as K.
    { induction l as [|p l IH]; [reflexivity|]. cbn [map filter]. rewrite qsum_cons, IH. destruct (q p); [cbn [length]; rewrite NQ_S; ring|ring]. }
    rewrite K in H2. rewrite <- NQ_1 in H2. apply NQ_inj in H2. exact H2. }
  assert (q (b, v) = true) as Hq.
  { assert (forall c, In c (map fst out) <-> In c (grid ny nx (pt (map fst out) x0 y0 dx dy))) as HI.
    { intros c. pose proof (grid_permutation (map fst out) x0 y0 dx dy nx ny HG) as HP. split; apply Permutation_in; [exact HP|apply Permutation_sym; exact HP]. }
    pose proof HG as (Hdx & Hdy & _). unfold q. cbn [fst]. rewrite EX, EY.
    assert (hist_cell (fst rx) (snd rx) nx (x0 + NQ i * dx) = Z.of_nat i) as ->.
    { apply (hist_positions x0 dx nx _ i Hdx); [lia|exact Hi|]. intros w. split.
      - intros Hw. apply in_map_iff in Hw. destruct Hw as (p & <- & Hp). apply (in_map fst) in Hp. apply HI, in_grid in Hp. destruct Hp as (l & k & Hl & Hk & ->). exists k. split; [exact Hk|]. apply (pt_spec (map fst out) x0 y0 dx dy nx ny HG); assumption.
      - intros (k & Hk & ->). destruct HG as (_ & _ & _ & H4). destruct (H4 k j Hk Hj) as (c & Hc & <- & _). apply in_map_iff in Hc. destruct Hc as (p & <- & Hp). apply in_map_iff. exists p. auto. }
    assert (hist_cell (fst ry) (snd ry) ny (y0 + NQ j * dy) = Z.of_nat j) as ->.
    { apply (hist_positions y0 dy ny _ j Hdy); [lia|exact Hj|]. intros w. split.
      - intros Hw. apply in_map_iff in Hw. destruct Hw as (p & <- & Hp). apply (in_map fst) in Hp. apply HI, in_grid in Hp. destruct Hp as (l & k & Hl & Hk & ->). exists l. split; [exact Hl|]. apply (pt_spec (map fst out) x0 y0 dx dy nx ny HG); assumption.
      - intros (k & Hk & ->). destruct HG as (_ & _ & _ & H4). destruct (H4 i k Hi Hk) as (c & Hc & _ & <-). apply in_map_iff in Hc. destruct Hc as (p & <- & Hp). apply in_map_iff. exists p. auto. }
    rewrite !Z.eqb_refl. reflexivity. }
  change (rsum (map snd (filter q out)) = v).
  assert (In (b, v) (filter q out)) as Hin by (apply filter_In; auto). destruct (filter q out) as [|p [|p' l]]; try discriminate HL.
  destruct Hin as [-> | []]. cbn [map snd rsum fold_right]. apply Rplus_0_r.
Qed.

(** ** Runs *)
(** The keywords with the defaults of the function; two limits must be given. *)
Definition with_defaults (kw : kwargs) : kwargs := set_default "coord_labels" (VTuple [VText "X"; VText "Y"]) (set_default "noaxis" (VBool true) (set_default "axis" (VText "scaled") kw)).
Definition given (kw : kwargs) (k : string) (l : option Qc * option Qc) : Prop := In k (map fst kw) /\ get k kw = VTuple [limit (fst l); limit (snd l)].
Definition no_average (kw : kwargs) : Prop := ~ In "average_value" (map fst kw) \/ get "average_value" kw = VBool false.
(** The figure shows at every point of the grid the value of the bin there. *)
Definition heights_right (data : list bin) (fi : finfo) (label : string) (x0 y0 dx dy : Qc) (nx ny : nat) (h : nat -> nat -> R) : Prop :=
  forall i j b, (i < nx)%nat -> (j < ny)%nat -> In b data -> bX b = x0 + NQ i * dx -> bY b = y0 + NQ j * dy -> valued data fi label b (h i j).
Definition contours_right (data : list bin) (fi : finfo) (label : string) (vlim : option Qc * option Qc) (levels : bool) (x0 y0 dx dy : Qc) (nx ny : nat) (c : nat -> nat -> Qc * Qc * R) : Prop :=
  forall i j, (i < nx)%nat -> (j < ny)%nat -> fst (c i j) = (x0 + NQ i * dx, y0 + NQ j * dy) /\
    forall b, In b data -> bX b = x0 + NQ i * dx -> bY b = y0 + NQ j * dy -> exists v, valued data fi label b v /\ if levels then snd (c i j) = v else clipped vlim v (snd (c i j)).

Definition defaults_keys : list string := ["coord_labels"; "noaxis"; "axis"].
Lemma defaults_other k kw : ~ In k defaults_keys -> Click.has k (with_defaults kw) = Click.has k kw /\ get k (with_defaults kw) = get k kw.
Proof.
  intros H. unfold with_defaults. assert (k <> "coord_labels" /\ k <> "noaxis" /\ k <> "axis") as (N1 & N2 & N3) by (cbn in H; intuition congruence).
  destruct (default_other k "axis" (VText "scaled") kw N3) as [A1 A2]. destruct (default_other k "noaxis" (VBool true) (set_default "axis" (VText "scaled") kw) N2) as [B1 B2].
  destruct (default_other k "coord_labels" (VTuple [VText "X"; VText "Y"]) (set_default "noaxis" (VBool true) (set_default "axis" (VText "scaled") kw)) N1) as [C1 C2].
  rewrite C1, C2, B1, B2, A1, A2. auto.
Qed.
Lemma inner_other k kw : ~ In k defaults_keys -> ~ In k (map fst keys) ->
  Click.has k (snd (pop_figure_kwargs (with_defaults kw))) = Click.has k kw /\ get k (snd (pop_figure_kwargs (with_defaults kw))) = get k kw.
Proof.
  intros H1 H2. destruct (defaults_other k kw H1) as [E1 E2]. rewrite pop_spec. cbn [snd]. rewrite rest_has, (rest_get keys k _ H2), E1, E2. split; [|reflexivity].
  destruct (existsb (String.eqb k) (map fst keys)) eqn:E; [|reflexivity]. exfalso. apply H2. apply existsb_exists in E. destruct E as (x & Hx & E). apply String.eqb_eq in E. subst x. exact Hx.
Qed.
Lemma given_required k kw l : ~ In k defaults_keys -> ~ In k (map fst keys) -> given kw k l -> required k (snd (pop_figure_kwargs (with_defaults kw))) = Ok l.
Proof.
  intros H1 H2 [H E]. destruct (inner_other k kw H1 H2) as [E1 E2]. unfold required. rewrite E1, E2, E. apply FigureProps.has_in in H. rewrite H. destruct l as [[a|] [b|]]; reflexivity.
Qed.
Lemma sized_defaults kw : sized kw -> exists r, create_figure (snd (pop_figure_kwargs (with_defaults kw))) = Ok r.
Proof. intros H. apply sized_ok. unfold with_defaults. repeat (apply sized_default; [discriminate|]). exact H. Qed.
Lemma no_average_ok kw : no_average kw -> Cli.truthy (get_or "average_value" (VBool false) (with_defaults kw)) = false.
Proof.
  intros H. unfold get_or. destruct (defaults_other "average_value" kw) as [E1 E2]; [cbn; intuition discriminate|]. rewrite E1, E2. destruct H as [H| ->].
  - destruct (Click.has "average_value" kw) eqn:E; [apply FigureProps.has_in in E; contradiction|reflexivity].
  - destruct (Click.has "average_value" kw); reflexivity.
Qed.
Lemma rclip_clipped lim v : clipped lim v (rclip lim v).
Proof.
  unfold clipped, rclip. destruct lim as [[lo|] [hi|]]; cbn [fst snd]; unfold Rmax, Rmin;
    (split; [intros Hlo Hhi; try specialize (Hlo _ eq_refl); try specialize (Hhi _ eq_refl)|split; [intros l [= <-] Hv Hlh; try specialize (Hlh _ eq_refl)|intros h [= <-] Hv]]);
    repeat match goal with |- context [Rle_dec ?a ?b] => destruct (Rle_dec a b) as [?|?%Rnot_le_lt] | H : context [Rle_dec ?a ?b] |- _ => destruct (Rle_dec a b) as [?|?%Rnot_le_lt] end; try reflexivity; lra.
Qed.
Section MapRun.
Variables (lib : content -> list call -> call -> option exn) (fuel : nat) (d : Utils.disk) (label : string) (clabel : option string) (kw : kwargs) (vlim : option Qc * option Qc).
Hypothesis Hlib : forall c, lib_ok lib c.
Hypothesis HK : known_field label.
Hypothesis Hv : given kw "vlim" vlim.
Hypothesis Hs : sized kw.
Hypothesis Ha : no_average kw.
Notation view type := (view_flowmap_2d lib fuel d type label clabel None kw).
Notation calls := (figure_calls (with_defaults kw)).
(** A good file: a map on a grid, large enough. *)
Definition good (fn : string) (b : list bin) (fi : finfo) (x0 y0 dx dy : Qc) (nx ny : nat) : Prop := gridded fuel d fn b fi x0 y0 dx dy nx ny /\ enough label nx ny.

Lemma one_step type fn files b fi x0 y0 dx dy nx ny : existsb (String.eqb type) draw_types = true -> good fn b fi x0 y0 dx dy nx ny ->
  exists out, map_data b fi label = Ok (next_label label, inl out) /\
  view type (fn :: files) = let '(a, cs, x) := decorated lib (with_defaults kw) (map_content type (inl out) (Z.of_nat nx, Z.of_nat ny)) in
    match x with Some e => ([(a, cs)], Some e) | None => let r := view_flowmap_2d lib fuel d type (next_label label) clabel None kw files in ((a, cs) :: fst r, snd r) end.
Proof.
  intros HT [HG HE]. destruct (data_ok _ _ _ _ _ _ _ _ _ _ _ label HG HK HE) as (out & E). exists out. split; [exact E|].
  unfold view_flowmap_2d. rewrite HT. fold (with_defaults kw). cbn [map_loop]. rewrite (g_read _ _ _ _ _ _ _ _ _ _ _ HG). cbn [rbind]. rewrite E. cbn [rbind cut_map].
  rewrite (no_average_ok kw Ha). unfold shape_of. rewrite (g_shape _ _ _ _ _ _ _ _ _ _ _ HG). reflexivity.
Qed.
Lemma height_step fn files b fi x0 y0 dx dy nx ny clim : given kw "clim" clim -> good fn b fi x0 y0 dx dy nx ny ->
  exists h, heights_right b fi label x0 y0 dx dy nx ny h /\
    view "height" (fn :: files) = let r := view_flowmap_2d lib fuel d "height" (next_label label) clabel None kw files in ((Some (Heights h), calls) :: fst r, snd r).
Proof.
  intros Hcl HG. destruct (one_step "height" fn files b fi x0 y0 dx dy nx ny eq_refl HG) as (out & E & ->). destruct (C87_values _ _ _ _ _ E) as (HP & HV & _).
  exists (hist_of out (Z.of_nat nx, Z.of_nat ny)). split.
  - intros i j c Hi Hj Hc EX EY. apply (Permutation_in _ HP) in Hc. apply in_map_iff in Hc. destruct Hc as ([c' v] & <- & Hc). cbn [fst] in *.
    rewrite (hist_of_ok out x0 y0 dx dy nx ny i j c' v); auto. apply (grid_perm_ok b); [exact HP|]. apply HG.
  - unfold decorated, map_content. change ("height" =? "height") with true. cbv iota. unfold height_content.
    rewrite (given_required "clim" kw clim), (given_required "vlim" kw vlim) by (try assumption; cbn; intuition discriminate). destruct (sized_defaults kw Hs) as (r & ->). cbn [rbind values_in].
    rewrite graph_ok by apply Hlib. reflexivity.
Qed.
(** Every file has its figure, in order, with the value of every bin in its cell and with the options of C84.  The dissipation: one file only. *)
Theorem C87_heights clim (maps : list (string * (list bin * finfo * (Qc * Qc * Qc * Qc) * (nat * nat)))) : given kw "clim" clim ->
  (forall fn b fi x0 y0 dx dy nx ny, In (fn, (b, fi, (x0, y0, dx, dy), (nx, ny))) maps -> good fn b fi x0 y0 dx dy nx ny) -> (label = "visc_diss" -> (length maps <= 1)%nat) ->
  exists figs, view "height" (map fst maps) = (map (fun h => (Some (Heights h), calls)) figs, None) /\
    Forall2 (fun m h => let '(_, (b, fi, (x0, y0, dx, dy), (nx, ny))) := m in heights_right b fi label x0 y0 dx dy nx ny h) maps figs.
Proof.
  intros Hcl. induction maps as [|[fn [[[b fi] [[[x0 y0] dx] dy]] [nx ny]]] maps IH]; intros Hg HV.
  - exists []. split; [reflexivity|constructor].
  - destruct (height_step fn (map fst maps) b fi x0 y0 dx dy nx ny clim Hcl (Hg _ _ _ _ _ _ _ _ _ (or_introl eq_refl))) as (h & Hh & E).
    cbn [map fst]. rewrite E. destruct (String.eqb_spec label "visc_diss") as [EL|NL].
    + specialize (HV EL). cbn [length] in HV. destruct maps; [|cbn [length] in HV; lia]. exists [h]. split; [reflexivity|]. constructor; [exact Hh|constructor].
    + destruct IH as (figs & EF & HF); [intros; eapply Hg; right; eassumption|intros; congruence|]. exists (h :: figs). split; [|constructor; assumption].
      unfold next_label. destruct (String.eqb_spec label "visc_diss"); [contradiction|]. rewrite EF. reflexivity.
Qed.
(** Contours: for the speed and the fields of the file, if the bins of the file are in columns. *)
Definition in_columns (b : list bin) (x0 y0 dx dy : Qc) (nx ny : nat) : Prop :=
  forall i j, (i < nx)%nat -> (j < ny)%nat -> let p := nth (i * ny + j) b bin0 in bX p = x0 + NQ i * dx /\ bY p = y0 + NQ j * dy.
Definition levels_given : bool := match get_or "contour_levels" VNone kw with VNone => false | _ => true end.
Lemma same_place b x0 y0 dx dy nx ny p q : bins_on_grid b x0 y0 dx dy nx ny -> In p b -> In q b -> bX p = bX q -> bY p = bY q -> p = q.
Proof.
  intros HG Hp Hq EX EY. pose proof (grid_permutation b x0 y0 dx dy nx ny HG) as HP. apply (Permutation_in _ HP) in Hp, Hq. apply in_grid in Hp, Hq.
  destruct Hp as (j & i & Hj & Hi & ->), Hq as (j' & i' & Hj' & Hi' & ->).
  destruct (pt_spec b x0 y0 dx dy nx ny HG i j Hi Hj) as (_ & X & Y). destruct (pt_spec b x0 y0 dx dy nx ny HG i' j' Hi' Hj') as (_ & X' & Y'). rewrite X, X' in EX. rewrite Y, Y' in EY.
  destruct HG as (Hdx & Hdy & _).
  assert (i = i') as ->. { destruct (Nat.lt_trichotomy i i') as [H|[H|H]]; [|exact H|]; exfalso; apply (coord_lt x0 dx _ _ Hdx) in H; rewrite EX in H; revert H; apply Qcle_not_lt, Qcle_refl. }
  assert (j = j') as ->; [|reflexivity]. destruct (Nat.lt_trichotomy j j') as [H|[H|H]]; [|exact H|]; exfalso; apply (coord_lt y0 dy _ _ Hdy) in H; rewrite EY in H; revert H; apply Qcle_not_lt, Qcle_refl.
Qed.
Lemma contour_step fn files b fi x0 y0 dx dy nx ny : label = "flow" \/ (exists f, named label f) -> good fn b fi x0 y0 dx dy nx ny -> in_columns b x0 y0 dx dy nx ny ->
  exists c, contours_right b fi label vlim levels_given x0 y0 dx dy nx ny c /\
    view "contour" (fn :: files) = let r := view "contour" files in ((Some (Contours c), calls) :: fst r, snd r).
Proof.
  intros HF HG HC. destruct (one_step "contour" fn files b fi x0 y0 dx dy nx ny eq_refl HG) as (out & E & ->). destruct (C87_values _ _ _ _ _ E) as (HP & HV & HO). specialize (HO HF).
  assert (next_label label = label) as -> by (unfold next_label; destruct (String.eqb_spec label "visc_diss") as [->|]; [destruct HF as [C|[f C]]; [discriminate|inversion C]|reflexivity]).
  assert (length out = (nx * ny)%nat) as HL by (rewrite <- (map_length fst), HO; destruct HG as [[_ _ _ HG _] _]; destruct HG as (_ & _ & -> & _); lia).
  set (out' := if levels_given then out else map (fun p => (fst p, rclip vlim (snd p))) out).
  assert (length out' = (nx * ny)%nat) as HL' by (unfold out'; destruct levels_given; rewrite ?map_length; exact HL).
  exists (fun i j => let p := nth (i * ny + j) out' (bin0, 0%R) in (bX (fst p), bY (fst p), snd p)). split.
  - intros i j Hi Hj. cbv zeta. assert ((i * ny + j) < nx * ny)%nat as Hk by nia. set (k := (i * ny + j)%nat) in *.
    assert (exists v, In (nth k b bin0, v) out /\ nth k out' (bin0, 0%R) = (nth k b bin0, if levels_given then v else rclip vlim v)) as (v & Hin & ->).
    { destruct (nth k out (bin0, 0%R)) as [p v] eqn:En. exists v. assert (nth k b bin0 = p) as ->.
      { rewrite <- HO. change bin0 with (fst (bin0, 0%R)). rewrite map_nth, En. reflexivity. }
      split; [rewrite <- En; apply nth_In; rewrite HL; exact Hk|]. unfold out'. destruct levels_given; [exact En|].
      set (F := fun p : bin * R => (fst p, rclip vlim (snd p))). rewrite (nth_indep _ _ (F (bin0, 0%R))) by (rewrite map_length, HL; exact Hk). rewrite map_nth, En. reflexivity. }
    cbn [fst snd]. destruct (HC i j Hi Hj) as [X Y]. fold k in X, Y. split; [rewrite X, Y; reflexivity|].
    intros p Hp EX EY. exists v. assert (p = nth k b bin0) as ->.
    { destruct HG as [[_ _ _ HG _] _]. apply (same_place b x0 y0 dx dy nx ny); [exact HG|exact Hp| |congruence|congruence]. apply nth_In. rewrite <- HO, map_length, HL. exact Hk. }
    split; [apply HV; exact Hin|]. destruct levels_given; [reflexivity|apply rclip_clipped].
  - unfold decorated, map_content. change ("contour" =? "height") with false. cbv iota. unfold contour_content.
    rewrite (given_required "vlim" kw vlim) by (try assumption; cbn; intuition discriminate). cbn [rbind values_in].
    assert (get_or "contour_levels" VNone (snd (pop_figure_kwargs (with_defaults kw))) = get_or "contour_levels" VNone kw) as ->.
    { destruct (inner_other "contour_levels" kw) as [E1 E2]; [cbn; intuition discriminate|cbn; intuition discriminate|]. unfold get_or. rewrite E1, E2. reflexivity. }
    assert (match get_or "contour_levels" VNone kw with VNone => map (fun p : bin * R => (fst p, rclip vlim (snd p))) out | _ => out end = out') as -> by (unfold out', levels_given; destruct (get_or "contour_levels" VNone kw); reflexivity).
    cbn [fst snd]. rewrite HL', Nat2Z.inj_mul, Z.eqb_refl. cbn [negb]. destruct (sized_defaults kw Hs) as (r & ->). cbn [rbind]. rewrite Nat2Z.id.
    rewrite graph_ok by apply Hlib. reflexivity.
Qed.
Theorem C87_contours (maps : list (string * (list bin * finfo * (Qc * Qc * Qc * Qc) * (nat * nat)))) : label = "flow" \/ (exists f, named label f) ->
  (forall fn b fi x0 y0 dx dy nx ny, In (fn, (b, fi, (x0, y0, dx, dy), (nx, ny))) maps -> good fn b fi x0 y0 dx dy nx ny /\ in_columns b x0 y0 dx dy nx ny) ->
  exists figs, view "contour" (map fst maps) = (map (fun c => (Some (Contours c), calls)) figs, None) /\
    Forall2 (fun m c => let '(_, (b, fi, (x0, y0, dx, dy), (nx, ny))) := m in contours_right b fi label vlim levels_given x0 y0 dx dy nx ny c) maps figs.
Proof.
  intros HF. induction maps as [|[fn [[[b fi] [[[x0 y0] dx] dy]] [nx ny]]] maps IH]; intros Hg.
  - exists []. split; [reflexivity|constructor].
  - destruct (Hg _ _ _ _ _ _ _ _ _ (or_introl eq_refl)) as [G1 G2]. destruct (contour_step fn (map fst maps) b fi x0 y0 dx dy nx ny HF G1 G2) as (c & Hc & E).
    cbn [map fst]. rewrite E. destruct IH as (figs & EF & HFg); [intros; eapply Hg; right; eassumption|]. exists (c :: figs). split; [|constructor; assumption]. rewrite EF. reflexivity.
Qed.
(** A file which cannot be read raises after the figures of the files before it. *)
Theorem C87_unreadable clim (maps : list (string * (list bin * finfo * (Qc * Qc * Qc * Qc) * (nat * nat)))) fn post e : given kw "clim" clim -> label <> "visc_diss" ->
  (forall fn b fi x0 y0 dx dy nx ny, In (fn, (b, fi, (x0, y0, dx, dy), (nx, ny))) maps -> good fn b fi x0 y0 dx dy nx ny) -> InterfaceFiles.flow_file fuel (Average.content d fn) = Err e ->
  exists figs, view "height" (map fst maps ++ fn :: post) = (map (fun h => (Some (Heights h), calls)) figs, Some e) /\
    Forall2 (fun m h => let '(_, (b, fi, (x0, y0, dx, dy), (nx, ny))) := m in heights_right b fi label x0 y0 dx dy nx ny h) maps figs.
Proof.
  intros Hcl NL Hg Ef. induction maps as [|[fn' [[[b fi] [[[x0 y0] dx] dy]] [nx ny]]] maps IH].
  - exists []. split; [|constructor]. cbn [map app]. unfold view_flowmap_2d. change (existsb (String.eqb "height") draw_types) with true. cbv iota. cbn [map_loop]. rewrite Ef. reflexivity.
  - cbn [map fst app]. destruct (height_step fn' (map fst maps ++ fn :: post) b fi x0 y0 dx dy nx ny clim Hcl (Hg _ _ _ _ _ _ _ _ _ (or_introl eq_refl))) as (h & Hh & E).
    rewrite E. destruct IH as (figs & EF & HF); [intros; eapply Hg; right; eassumption|]. exists (h :: figs). split; [|constructor; assumption].
    unfold next_label. destruct (String.eqb_spec label "visc_diss"); [contradiction|]. rewrite EF. reflexivity.
Qed.
End MapRun.
Print Assumptions C87_heights.
Print Assumptions C87_contours.
Print Assumptions C87_unreadable.
(** What the library raises reaches the caller, and no further file is drawn. *)
Theorem C87_raises lib fuel d label clabel kw vlim clim fn files b fi x0 y0 dx dy nx ny e : known_field label -> given kw "vlim" vlim -> given kw "clim" clim -> sized kw -> no_average kw ->
  good fuel d label fn b fi x0 y0 dx dy nx ny -> (forall c, snd (graph (lib c) (with_defaults kw)) = Some e) ->
  exists h, view_flowmap_2d lib fuel d "height" label clabel None kw (fn :: files) = ([(Some (Heights h), fst (graph (lib (Heights h)) (with_defaults kw)))], Some e).
Proof.
  intros HK Hv Hcl Hs Ha HG He. destruct (one_step lib fuel d label clabel kw HK Ha "height" fn files b fi x0 y0 dx dy nx ny eq_refl HG) as (out & E & ->).
  exists (hist_of out (Z.of_nat nx, Z.of_nat ny)). unfold decorated, map_content. change ("height" =? "height") with true. cbv iota. unfold height_content.
  rewrite (given_required "clim" kw clim), (given_required "vlim" kw vlim) by (try assumption; cbn; intuition discriminate). destruct (sized_defaults kw Hs) as (r & ->). cbn [rbind values_in].
  specialize (He (Heights (hist_of out (Z.of_nat nx, Z.of_nat ny)))). destruct (graph _ _) as [cs x]. cbn [fst snd] in *. subst x. reflexivity.
Qed.
Print Assumptions C87_raises.
(** For the dissipation of several files the second one fails, whatever it is. *)
Theorem C87_dissipation_refuted lib fuel d clabel kw vlim clim fn fn2 files b fi x0 y0 dx dy nx ny b2 fi2 : (forall c, lib_ok lib c) -> given kw "vlim" vlim -> given kw "clim" clim -> sized kw -> no_average kw ->
  good fuel d "visc_diss" fn b fi x0 y0 dx dy nx ny -> InterfaceFiles.flow_file fuel (Average.content d fn2) = Ok (b2, fi2) ->
  exists h cs, view_flowmap_2d lib fuel d "height" "visc_diss" clabel None kw (fn :: fn2 :: files) = ([(Some (Heights h), figure_calls (with_defaults kw)); (None, cs)], Some ValueErr).
Proof.
  intros Hl Hv Hcl Hs Ha HG E2. assert (known_field "visc_diss") as HK by (right; cbn; auto).
  destruct (height_step lib fuel d "visc_diss" clabel kw vlim Hl HK Hv Hs Ha fn (fn2 :: files) b fi x0 y0 dx dy nx ny clim Hcl HG) as (h & _ & ->).
  change (next_label "visc_diss") with "visc". unfold view_flowmap_2d. change (existsb (String.eqb "height") draw_types) with true. cbv iota. fold (with_defaults kw). cbn [map_loop]. rewrite E2. cbn [rbind].
  change (map_data b2 fi2 "visc") with (Ok (A := string * (list (bin * R) + list bin)) ("visc", inr b2)). cbn [rbind cut_map]. rewrite (no_average_ok kw Ha).
  unfold decorated, map_content. change ("height" =? "height") with true. cbv iota. unfold height_content.
  rewrite (given_required "clim" kw clim), (given_required "vlim" kw vlim) by (try assumption; cbn; intuition discriminate). destruct (sized_defaults kw Hs) as (r & ->). cbn [rbind values_in fst snd].
  eexists _, _. reflexivity.
Qed.
Print Assumptions C87_dissipation_refuted.
(** With 'average_value' nothing is drawn: the function which should print it does not exist. *)
Theorem C87_average_refuted lib fuel d type label clabel kw fn files b fi x0 y0 dx dy nx ny : In type ["height"; "contour"] -> known_field label -> In "average_value" (map fst kw) -> get "average_value" kw = VBool true ->
  good fuel d label fn b fi x0 y0 dx dy nx ny -> view_flowmap_2d lib fuel d type label clabel None kw (fn :: files) = ([], Some NameErr).
Proof.
  intros HT HK HI Hav [HG HE]. destruct (data_ok _ _ _ _ _ _ _ _ _ _ _ label HG HK HE) as (out & E).
  unfold view_flowmap_2d. assert (existsb (String.eqb type) draw_types = true) as -> by (apply existsb_exists; exists type; split; [exact HT|apply String.eqb_refl]).
  fold (with_defaults kw). cbn [map_loop]. rewrite (g_read _ _ _ _ _ _ _ _ _ _ _ HG). cbn [rbind]. rewrite E. cbn [rbind cut_map].
  assert (Cli.truthy (get_or "average_value" (VBool false) (with_defaults kw)) = true) as ->; [|reflexivity].
  unfold get_or. destruct (defaults_other "average_value" kw) as [E1 E2]; [cbn; intuition discriminate|]. rewrite E1, E2, Hav. apply FigureProps.has_in in HI. rewrite HI. reflexivity.
Qed.
Print Assumptions C87_average_refuted.
(** Without limits of the values or of the counts, which are not said to be required, nothing is drawn. *)
Theorem C87_limits_refuted lib fuel d label clabel kw fn files b fi x0 y0 dx dy nx ny : known_field label -> no_average kw -> ~ In "clim" (map fst kw) -> good fuel d label fn b fi x0 y0 dx dy nx ny ->
  exists cs, view_flowmap_2d lib fuel d "height" label clabel None kw (fn :: files) = ([(None, cs)], Some KeyErr).
Proof.
  intros HK Ha HN HG. destruct (one_step lib fuel d label clabel kw HK Ha "height" fn files b fi x0 y0 dx dy nx ny eq_refl HG) as (out & E & ->).
  unfold decorated, map_content. change ("height" =? "height") with true. cbv iota. unfold height_content, required at 1.
  destruct (inner_other "clim" kw) as [-> _]; [cbn; intuition discriminate|cbn; intuition discriminate|].
  destruct (Click.has "clim" kw) eqn:EC; [apply FigureProps.has_in in EC; contradiction|]. cbn [rbind]. eexists. reflexivity.
Qed.
Print Assumptions C87_limits_refuted.
(** A cutoff for the text 'None', as the command line gives it, is a KeyError. *)
Theorem C87_cutoff_label_refuted lib fuel d type label c kw fn files b fi x0 y0 dx dy nx ny : In type ["height"; "contour"] -> known_field label ->
  good fuel d label fn b fi x0 y0 dx dy nx ny -> view_flowmap_2d lib fuel d type label (Some "None") (Some c) kw (fn :: files) = ([], Some KeyErr).
Proof.
  intros HT HK [HG HE]. destruct (data_ok _ _ _ _ _ _ _ _ _ _ _ label HG HK HE) as (out & E).
  unfold view_flowmap_2d. assert (existsb (String.eqb type) draw_types = true) as -> by (apply existsb_exists; exists type; split; [exact HT|apply String.eqb_refl]).
  fold (with_defaults kw). cbn [map_loop]. rewrite (g_read _ _ _ _ _ _ _ _ _ _ _ HG). cbn [rbind]. rewrite E. cbn [rbind cut_map].
  change (field_of "None") with (@None (bin -> Qc)). cbv iota. assert ("None" =? next_label label = false) as ->; [|reflexivity].
  destruct (String.eqb_spec "None" (next_label label)) as [C|]; [exfalso|reflexivity]. unfold next_label in C. destruct (String.eqb_spec label "visc_diss"); [discriminate|]. subst label.
  destruct HK as [[f Hf]|HK]; [inversion Hf|cbn in HK; intuition discriminate].
Qed.
Print Assumptions C87_cutoff_label_refuted.
(** With a cutoff for a field of the file the bins which reach it are kept, and no others. *)
Theorem C87_cutoff label out l f c : named l f -> exists kept, cut_map (Some l) (Some c) label (inl out) = Ok (inl kept) /\ selects (fun p => c <= f (fst p)) out kept.
Proof.
  intros Hf. apply named_field in Hf. unfold cut_map. rewrite Hf. eexists. split; [reflexivity|]. apply selects_of. intros p _. apply qle_true.
Qed.
Print Assumptions C87_cutoff.
(** The same for a cutoff of the derived field which is drawn. *)
Theorem C87_cutoff_derived label out c : (forall f, ~ named label f) -> exists kept, cut_map (Some label) (Some c) label (inl out) = Ok (inl kept) /\ selects (fun p => (QR c <= snd p)%R) out kept.
Proof.
  intros Hf. unfold cut_map. destruct (field_of label) as [f|] eqn:E; [apply named_field in E; exfalso; exact (Hf f E)|]. rewrite String.eqb_refl. eexists. split; [reflexivity|].
  apply selects_of. intros p _. unfold at_least. destruct (Rle_dec (QR c) (snd p)); split; intros; (assumption || reflexivity || discriminate || contradiction).
Qed.
Print Assumptions C87_cutoff_derived.

Example C87_ex lib clabel : (forall c, lib_ok lib c) -> exists h1 h2 c, view_flowmap_2d lib 60 ex_disk "height" "flow" clabel None [("clim", VTuple [VNone; VNone]); ("vlim", VTuple [VNone; VNone])] ["a.dat"; "b.dat"] =
  ([(Some (Heights h1), c); (Some (Heights h2), c)], None) /\ speed (fbin 1 0 3 4 6) (h1 1%nat 0%nat) /\ h1 1%nat 0%nat = 5%R /\ speed (fbin 0 1 2 1 3) (h2 0%nat 1%nat).
Proof.
  intros Hl.
  assert (bins_on_grid ex_first 0 0 1 1 2 2 /\ bins_on_grid ex_second 0 0 1 1 2 2) as [G1 G2].
  { split; (split; [reflexivity|]; split; [reflexivity|]; split; [reflexivity|]; intros i j Hi Hj; destruct i as [|[|i]]; [| |lia]; destruct j as [|[|j]]; try lia);
    [exists (fbin 0 0 1 2 4)|exists (fbin 0 1 1 1 1)|exists (fbin 1 0 3 4 6)|exists (fbin 1 1 0 1 5)|exists (fbin 0 0 0 0 4)|exists (fbin 0 1 2 1 3)|exists (fbin 1 0 3 1 6)|exists (fbin 1 1 1 1 5)];
    (split; [cbn; tauto|]); split; apply qeq_true; vm_compute; reflexivity. }
  destruct (C87_heights lib 60 ex_disk "flow" clabel [("clim", VTuple [VNone; VNone]); ("vlim", VTuple [VNone; VNone])] (None, None) Hl) with (clim := (@None Qc, @None Qc))
    (maps := [("a.dat", (ex_first, ex_fi, (0, 0, 1, 1), (2, 2)%nat)); ("b.dat", (ex_second, ex_fi, (0, 0, 1, 1), (2, 2)%nat))]) as (figs & E & HF).
  - right. cbn; auto.
  - split; [cbn; auto|reflexivity].
  - left. cbn; intuition discriminate.
  - left. cbn; intuition discriminate.
  - split; [cbn; auto|reflexivity].
  - intros fn b fi x0 y0 dx dy nx ny [C|[C|[]]]; injection C as <- <- <- <- <- <- <- <- <-.
    + split; [|split; [discriminate|cbn; intuition discriminate]]. split; [exact ex_first_read|reflexivity|reflexivity|exact G1|lia].
    + split; [|split; [discriminate|cbn; intuition discriminate]]. split; [exact ex_second_read|reflexivity|reflexivity|exact G2|lia].
  - discriminate.
  - inversion HF as [|? h1 ? r1 H1 HF1]; subst. inversion HF1 as [|? h2 ? r2 H2 HF2]; subst. inversion HF2; subst. exists h1, h2. eexists. split; [exact E|].
    assert (speed (fbin 1 0 3 4 6) (h1 1%nat 0%nat)) as S1.
    { apply (H1 1%nat 0%nat (fbin 1 0 3 4 6)); [lia|lia|cbn; auto|apply qeq_true; vm_compute; reflexivity|apply qeq_true; vm_compute; reflexivity|reflexivity]. }
    split; [exact S1|]. split.
    + destruct S1 as [P Q]. cbn [bU bV fbin] in Q. replace (QR (ZQ 3)) with 3%R in Q by (unfold QR; replace (this (ZQ 3)) with (3 # 1)%Q by (vm_compute; reflexivity); unfold Q2R; simpl; lra). replace (QR (ZQ 4)) with 4%R in Q by (unfold QR; replace (this (ZQ 4)) with (4 # 1)%Q by (vm_compute; reflexivity); unfold Q2R; simpl; lra).
      assert ((h1 1%nat 0%nat - 5) * (h1 1%nat 0%nat + 5) = 0)%R as Z by lra. apply Rmult_integral in Z. destruct Z; lra.
    + apply (H2 0%nat 1%nat (fbin 0 1 2 1 3)); [lia|lia|cbn; auto|apply qeq_true; vm_compute; reflexivity|apply qeq_true; vm_compute; reflexivity|reflexivity].
Qed.
