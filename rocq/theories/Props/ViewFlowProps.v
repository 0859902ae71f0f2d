(** Properties C53, C54, C56 and C64 to C67: drawn maps, limits and reading many files. *)
From Coq Require Import String Permutation Reals.
From Verif.Base Require Import QcX QcR Res Np ListX Sort Sums Bytes.
From Verif.Model Require Import Utils Bins Flow Text Gmx Simple Formats Sample ContactAngle ViewFlow ViewFlowR ReadFiles.
From Verif.Spec Require Import FlowSpec GridSpec FieldSpec ViewFlowSpec.
From Verif.Proofs Require Import FlowP AngleP SampleP ViewFlowP.
Local Open Scope Qc_scope.
Local Open Scope list_scope.

(** ** C53: flow arrows *)
(** The arrows are those of the records inside the limits with flow along both axes, with
    their positions, flow and colour (1 without a known colour field), in order. *)
Theorem C53_arrows_partial : forall t fl cl colour clim xlim ylim, rows t <> [] ->
  In (fst fl) (labels t) -> In (snd fl) (labels t) -> In (fst cl) (labels t) -> In (snd cl) (labels t) -> (forall l, fst clim = Some l -> In l (labels t)) ->
  exists sel, selects (fun r => both_components (labels t) (fst fl) (snd fl) r /\ visible (labels t) (fst cl) (snd cl) clim xlim ylim r) (rows t) sel /\
    get_quiver_data t fl cl colour clim xlim ylim =
      Ok [map (fld (labels t) (fst cl)) sel; map (fld (labels t) (snd cl)) sel; map (fld (labels t) (fst fl)) sel; map (fld (labels t) (snd fl)) sel;
          map (fun r => match colour with Some c => if existsb (String.eqb c) (labels t) then fld (labels t) c r else 1 | None => 1 end) sel].
Proof. exact quiver_ok. Qed.
Print Assumptions C53_arrows_partial.
(** If no record has flow along one axis only, these are all records with flow. *)
Theorem C53_all_flow : forall t fl cl colour clim xlim ylim, rows t <> [] ->
  In (fst fl) (labels t) -> In (snd fl) (labels t) -> In (fst cl) (labels t) -> In (snd cl) (labels t) -> (forall l, fst clim = Some l -> In l (labels t)) ->
  (forall r, In r (rows t) -> (fld (labels t) (fst fl) r = 0 <-> fld (labels t) (snd fl) r = 0)) ->
  exists sel weights, selects (fun r => any_flow (labels t) (fst fl) (snd fl) r /\ visible (labels t) (fst cl) (snd cl) clim xlim ylim r) (rows t) sel /\
    get_quiver_data t fl cl colour clim xlim ylim =
      Ok [map (fld (labels t) (fst cl)) sel; map (fld (labels t) (snd cl)) sel; map (fld (labels t) (fst fl)) sel; map (fld (labels t) (snd fl)) sel; weights].
Proof.
  intros t fl cl colour clim xlim ylim Hne H1 H2 H3 H4 HC HZ. destruct (quiver_ok t fl cl colour clim xlim ylim Hne H1 H2 H3 H4 HC) as (sel & HS & E).
  eexists sel, _. split; [|exact E]. clear E Hne. induction HS as [|r l m HP HS IH|r l m HP HS IH]; [constructor| |].
  - apply sel_keep; [unfold both_components, any_flow in *; tauto|]. apply IH. intros; apply HZ; right; assumption.
  - apply sel_drop; [|apply IH; intros; apply HZ; right; assumption]. intros [HA HV]. apply HP. split; [|exact HV]. specialize (HZ r (or_introl eq_refl)). unfold both_components, any_flow in *. tauto.
Qed.
Print Assumptions C53_all_flow.
Theorem C53_unknown_label : forall t fl cl colour clim xlim ylim, ~ In (fst cl) (labels t) -> get_quiver_data t fl cl colour clim xlim ylim = Err ValueErr.
Proof. intros. unfold get_quiver_data. rewrite field_unknown by assumption. reflexivity. Qed.
(** A bin with flow along one axis only is not drawn. *)
Definition ex_flow : table := mkTable ["X"; "Y"; "U"; "V"; "M"]%string (map (map ZQ) [[0; 0; 3; 0; 5]; [1; 0; 2; 1; 5]; [2; 0; 2; 2; 1]]%Z).
Theorem C53_one_component_refuted : exists t r, In r (rows t) /\ any_flow (labels t) "U" "V" r /\ visible (labels t) "X" "Y" (None, None) (None, None) (None, None) r /\
  exists out, get_quiver_data t ("U", "V")%string ("X", "Y")%string None (None, None) (None, None) (None, None) = Ok out /\ forall xs, nth_error out 0 = Some xs -> ~ In (fld (labels t) "X" r) xs.
Proof.
  exists ex_flow, (map ZQ [0; 0; 3; 0; 5]%Z). split; [left; reflexivity|]. split; [left; discriminate|]. split; [repeat split; discriminate|].
  eexists. split; [reflexivity|]. intros xs [= <-]. intros H. vm_compute in H. destruct H as [H|[H|[]]]; discriminate H.
Qed.
Print Assumptions C53_one_component_refuted.
Example C53_ex : get_quiver_data ex_flow ("U", "V")%string ("X", "Y")%string (Some "M"%string) (Some "M"%string, Some (ZQ 2)) (None, None) (None, None) = Ok (map (map ZQ) [[1]; [0]; [2]; [1]; [5]]%Z).
Proof. vm_compute. reflexivity. Qed.

(** ** C54: density gradients *)
(** For a linear density m0 + a x + b y on a grid the result is the gradient, but the bin sizes of the axes are exchanged. *)
Theorem C54_linear_partial : forall data x0 y0 dx dy nx ny o n m0 a b, bins_on_grid data x0 y0 dx dy nx ny -> (2 <= nx)%nat -> (2 <= ny)%nat -> linear_density data m0 a b ->
  exists s, Permutation data s /\ add_density_gradient data (mkFinfo (Some (Z.of_nat nx, Z.of_nat ny)) o (Some (dx, dy)) n) = Ok (map (fun r => (r, (a * (dx / dy), b * (dy / dx)))) s).
Proof.
  intros data x0 y0 dx dy nx ny o n m0 a b HG Hx Hy HL. exists (sort_bins data). split; [symmetry; apply Permutation_sym, isort_perm|]. apply (gradients_on_grid data x0 y0 dx dy nx ny _ m0 a b o n HG Hx Hy HL eq_refl).
Qed.
Print Assumptions C54_linear_partial.
(** So it is right for square bins, *)
Theorem C54_square_bins : forall data x0 y0 d nx ny o n m0 a b, bins_on_grid data x0 y0 d d nx ny -> (2 <= nx)%nat -> (2 <= ny)%nat -> linear_density data m0 a b ->
  exists s, Permutation data s /\ add_density_gradient data (mkFinfo (Some (Z.of_nat nx, Z.of_nat ny)) o (Some (d, d)) n) = Ok (map (fun r => (r, (a, b))) s) /\
    add_evaporation data (mkFinfo (Some (Z.of_nat nx, Z.of_nat ny)) o (Some (d, d)) n) = Ok (map (fun r => (r, bU r * a + bV r * b)) s).
Proof.
  intros data x0 y0 d nx ny o n m0 a b HG Hx Hy HL. destruct (C54_linear_partial data x0 y0 d d nx ny o n m0 a b HG Hx Hy HL) as (s & HP & E).
  assert (d <> 0) as Hd by (apply qpos_nz, HG). replace (d / d) with 1 in E by (field; exact Hd). replace (a * 1) with a in E by ring. replace (b * 1) with b in E by ring.
  exists s. split; [exact HP|]. split; [exact E|]. unfold add_evaporation. change (mass_gradients data) with (add_density_gradient data). rewrite E. cbn [rbind]. rewrite map_map. reflexivity.
Qed.
Print Assumptions C54_square_bins.
(** and wrong for all others, unless the density is constant. *)
Theorem C54_bin_size_refuted : forall data x0 y0 dx dy nx ny o n m0 a b, bins_on_grid data x0 y0 dx dy nx ny -> (2 <= nx)%nat -> (2 <= ny)%nat -> linear_density data m0 a b ->
  dx <> dy -> a <> 0 -> exists r gx gy out, add_density_gradient data (mkFinfo (Some (Z.of_nat nx, Z.of_nat ny)) o (Some (dx, dy)) n) = Ok out /\ In (r, (gx, gy)) out /\ gx <> a.
Proof.
  intros data x0 y0 dx dy nx ny o n m0 a b HG Hx Hy HL Hd Ha. destruct (C54_linear_partial data x0 y0 dx dy nx ny o n m0 a b HG Hx Hy HL) as (s & HP & E).
  destruct (proj2 (proj2 (proj2 HG)) 0%nat 0%nat ltac:(lia) ltac:(lia)) as (r & Hr & _). eexists r, _, _, _. split; [exact E|]. split; [apply in_map_iff; exists r; split; [reflexivity|apply (Permutation_in _ HP); exact Hr]|].
  assert (dy <> 0) as Hdy by (apply qpos_nz, HG). intros K. apply Hd. assert (a * (dx - dy) = 0) as K'. { transitivity (dy * (a * (dx / dy) - a)); [field; exact Hdy|]. rewrite K. ring. }
  apply Qcmult_integral in K'. destruct K' as [K'|K']; [tauto|]. transitivity (dx - dy + dy); [ring|]. rewrite K'. ring.
Qed.
Print Assumptions C54_bin_size_refuted.
(** A map of one row or column has no gradients. *)
Theorem C54_single_row : forall data fi nx ny, f_shape fi = Some (nx, ny) -> (nx < 2 \/ ny < 2)%Z -> exists e, add_density_gradient data fi = Err e.
Proof.
  intros data fi nx ny H HN. unfold add_density_gradient, mass_gradients. rewrite H. destruct (f_spacing fi) as [[dx dy]|]; [|eauto]. cbv zeta. destruct (Nat.eqb _ _); cbn [negb]; [|eauto].
  destruct (Nat.ltb_spec (Z.to_nat nx) 2); cbn [orb]; [eauto|]. destruct (Nat.ltb_spec (Z.to_nat ny) 2); [eauto|]. lia.
Qed.
(** A 2 x 2 grid with density 1 + 2 x + 3 y and bins of size 1 x 2. *)
Definition gbin (x y m v : Z) : bin := mkBin (ZQ x) (ZQ y) 1 1 (ZQ m) (ZQ v) 0.
Definition ex_grid : list bin := [gbin 0 0 1 1; gbin 0 2 7 1; gbin 1 0 3 1; gbin 1 2 9 1].
Example C54_ex_hyp : bins_on_grid ex_grid 0 0 1 (ZQ 2) 2 2 /\ linear_density ex_grid 1 (ZQ 2) (ZQ 3).
Proof.
  split.
  - split; [reflexivity|]. split; [reflexivity|]. split; [reflexivity|]. intros i j Hi Hj. destruct i as [|[|i]]; [| |lia]; destruct j as [|[|j]]; try lia;
    [exists (gbin 0 0 1 1)|exists (gbin 0 2 7 1)|exists (gbin 1 0 3 1)|exists (gbin 1 2 9 1)]; (split; [simpl; tauto|]); split; apply qeq_true; vm_compute; reflexivity.
  - intros r [<- |[<- |[<- |[<- |[]]]]]; apply qeq_true; vm_compute; reflexivity.
Qed.
Example C54_ex_value : match add_density_gradient ex_grid (mkFinfo (Some (2, 2)%Z) None (Some (1, ZQ 2)) None) with
  | Ok ((_, (gx, gy)) :: _) => qleqb [gx; gy] [1; ZQ 6] = true | _ => False end.
Proof. vm_compute. reflexivity. Qed.

(** ** C56: limits and lists of files *)
Theorem C56_limits : forall t limits, (forall p, In p limits -> In (fst p) (labels t)) ->
  exists inds, get_lim_indices t limits = Ok inds /\ Sorted.StronglySorted lt inds /\
    forall i, In i inds <-> (i < List.length (rows t))%nat /\ forall l lo hi, In (l, (lo, hi)) limits -> inside lo hi (fld (labels t) l (nth i (rows t) [])).
Proof.
  assert (forall p n a, Sorted.StronglySorted lt (filter p (seq a n))) as HS.
  { intros p n. induction n as [|n IH]; intros a; simpl; [constructor|]. destruct (p a); [|apply IH]. constructor; [apply IH|]. apply Forall_forall. intros x Hx. apply filter_In in Hx. destruct Hx as [Hx _]. apply in_seq in Hx. lia. }
  intros t limits H. destruct limits as [|(l, (lo0, hi0)) rest].
  - eexists. split; [reflexivity|]. split; [|intros i; rewrite in_seq; split; [intros; split; [lia|intros ? ? ? []]|lia]].
    replace (seq 0 (List.length (rows t))) with (filter (fun _ => true) (seq 0 (List.length (rows t)))); [apply HS|]. generalize (seq 0 (List.length (rows t))). intros s. induction s as [|x s IH]; [reflexivity|]. simpl. f_equal. exact IH.
  - cbn [get_lim_indices]. rewrite field_known by (apply (H (l, (lo0, hi0))); left; reflexivity). cbn [rbind]. rewrite lim_fold by (intros; apply H; right; assumption).
    eexists. split; [reflexivity|]. split.
    + unfold get_indices. match goal with |- Sorted.StronglySorted lt (filter ?f (filter ?g ?s)) => replace (filter f (filter g s)) with (filter (fun x => (g x && f x)%bool) s); [apply HS|] end.
      generalize (seq 0 (List.length (map (fld (labels t) l) (rows t)))). intros s. induction s as [|x s IH]; [reflexivity|]. simpl. destruct (within _ _ _); simpl; [destruct (forallb _ rest); [f_equal|]|]; exact IH.
    + assert (forall l i, (i < List.length (rows t))%nat -> nth i (map (fld (labels t) l) (rows t)) 0 = fld (labels t) l (nth i (rows t) [])) as HN.
      { intros l' i Hi. rewrite (nth_indep _ 0 (fld (labels t) l' [])) by (rewrite map_length; exact Hi). apply map_nth. }
      intros i. rewrite filter_In, get_indices_in, map_length, forallb_forall. split.
      * intros ((Hi & Hin) & HF). split; [exact Hi|]. intros l' lo hi [[= <- <- <-]|Hp]; [rewrite HN in Hin by exact Hi; exact Hin|].
        specialize (HF _ Hp). apply existsb_exists in HF. destruct HF as (k & Hk & E). apply Nat.eqb_eq in E. subst k. cbn [fst snd] in Hk. apply get_indices_in in Hk. destruct Hk as [_ Hk]. rewrite HN in Hk by exact Hi. exact Hk.
      * intros (Hi & HA). split; [split; [exact Hi|rewrite HN by exact Hi; apply (HA l lo0 hi0); left; reflexivity]|].
        intros (l', (lo, hi)) Hp. apply existsb_exists. exists i. split; [|apply Nat.eqb_refl]. apply get_indices_in. rewrite map_length. split; [exact Hi|]. cbn [fst snd]. rewrite HN by exact Hi. apply HA. right. exact Hp.
Qed.
Print Assumptions C56_limits.
Theorem C56_unknown_field : forall t l lim rest, ~ In l (labels t) -> get_lim_indices t ((l, lim) :: rest) = Err ValueErr.
Proof. intros. cbn [get_lim_indices]. rewrite field_unknown by assumption. reflexivity. Qed.
Example C56_ex : get_lim_indices ex_flow [("X"%string, (Some 0, Some 1)); ("V"%string, (Some 1, None))] = Ok [1%nat] /\ get_lim_indices ex_flow [] = Ok [0; 1; 2]%nat.
Proof. split; vm_compute; reflexivity. Qed.
(** Each file is read as if alone, in the order given; the first failing one ends the reading. *)
Theorem C56_files : forall fuel contents names,
  match read_from_files fuel contents names with
  | (out, None) => Forall2 (fun n r => read_data_file fuel (contents n) = Ok r) names out
  | (out, Some e) => exists before n after, names = before ++ n :: after /\ Forall2 (fun n r => read_data_file fuel (contents n) = Ok r) before out /\ read_data_file fuel (contents n) = Err e
  end.
Proof.
  intros fuel contents names. induction names as [|n names IH]; cbn [read_from_files]; [constructor|].
  destruct (read_data_file fuel (contents n)) as [r|e] eqn:E; [|exists [], n, names; split; [reflexivity|]; split; [constructor|exact E]].
  destruct (read_from_files fuel contents names) as [out [e|]]; cbn [fst snd].
  - destruct IH as (b & m & a & -> & HF & HE). exists (n :: b), m, a. split; [reflexivity|]. split; [constructor; assumption|exact HE].
  - constructor; assumption.
Qed.
Print Assumptions C56_files.
Example C56_ex_missing : read_from_files 10 (fun _ => None) ["a"; "b"]%string = ([], Some OSErr).
Proof. reflexivity. Qed.

(** ** C64: height maps *)
(** A full map: each cell shows the value of its bin. *)
Theorem C64_cells : forall data x0 y0 dx dy nx ny V i j b, bins_on_grid data x0 y0 dx dy nx ny -> (i < nx)%nat -> (j < ny)%nat ->
  In b data -> bX b = x0 + NQ i * dx -> bY b = y0 + NQ j * dy -> height_map data V (nx, ny) i j = V b.
Proof. exact height_ok. Qed.
Print Assumptions C64_cells.
Example C64_ex : height_map ex_grid bM (2%nat, 2%nat) 1 1 = ZQ 9.
Proof. apply (C64_cells ex_grid 0 0 1 (ZQ 2) 2 2 bM 1 1 (gbin 1 2 9 1)); [apply C54_ex_hyp|lia|lia|simpl; tauto|apply qeq_true; vm_compute; reflexivity|apply qeq_true; vm_compute; reflexivity]. Qed.
(** If bins are removed by a cutoff first, the remaining ones are drawn in other cells: here the bin in column 1 of 3. *)
Theorem C64_cutoff_refuted : exists data kept b, kept = filter (fun b => qle 1 (bM b)) data /\ bins_on_grid data 0 0 1 1 3 2 /\ In b kept /\ bX b = 1 /\ bY b = 0 /\
  bM b = ZQ 5 /\ height_map kept bM (3%nat, 2%nat) 1 0 = 0.
Proof.
  exists [gbin 0 0 3 0; gbin 0 1 3 0; gbin 1 0 5 0; gbin 1 1 3 0; gbin 2 0 0 0; gbin 2 1 0 0], [gbin 0 0 3 0; gbin 0 1 3 0; gbin 1 0 5 0; gbin 1 1 3 0], (gbin 1 0 5 0).
  split; [reflexivity|]. split.
  - split; [reflexivity|]. split; [reflexivity|]. split; [reflexivity|]. intros i j Hi Hj. destruct i as [|[|[|i]]]; [| | |lia]; destruct j as [|[|j]]; try lia;
    [exists (gbin 0 0 3 0)|exists (gbin 0 1 3 0)|exists (gbin 1 0 5 0)|exists (gbin 1 1 3 0)|exists (gbin 2 0 0 0)|exists (gbin 2 1 0 0)]; (split; [simpl; tauto|]); split; apply qeq_true; vm_compute; reflexivity.
  - split; [simpl; tauto|]. split; [apply qeq_true; vm_compute; reflexivity|]. split; [reflexivity|]. split; [reflexivity|]. apply qeq_true. vm_compute. reflexivity.
Qed.
Print Assumptions C64_cutoff_refuted.

(** ** C65: contour maps *)
(** Records with y varying fastest: point (i, j) of the grid has the position and the value of its bin. *)
Theorem C65_contour : forall data V x0 y0 dx dy nx ny, List.length data = (nx * ny)%nat ->
  (forall i j, (i < nx)%nat -> (j < ny)%nat -> let b := nth (i * ny + j) data bin0 in bX b = x0 + NQ i * dx /\ bY b = y0 + NQ j * dy) ->
  exists g, contour_grid data V (nx, ny) (None, None) false = Ok g /\
    forall i j, (i < nx)%nat -> (j < ny)%nat -> exists b, In b data /\ g i j = (x0 + NQ i * dx, y0 + NQ j * dy, V b) /\ bX b = x0 + NQ i * dx /\ bY b = y0 + NQ j * dy.
Proof.
  intros data V x0 y0 dx dy nx ny HL HP. unfold contour_grid. cbn [fst snd]. rewrite HL, Nat.eqb_refl. cbn [negb]. eexists. split; [reflexivity|].
  intros i j Hi Hj. destruct (HP i j Hi Hj) as [X Y]. exists (nth (i * ny + j) data bin0). split; [apply nth_In; rewrite HL; nia|]. unfold clip. cbn [fst snd]. rewrite X, Y. auto.
Qed.
Print Assumptions C65_contour.
(** With limits of the values: those are cut off at the limits. *)
Theorem C65_limits : forall data V shape lo hi g, lo <= hi -> contour_grid data V shape (Some lo, Some hi) false = Ok g -> forall i j, lo <= snd (g i j) /\ snd (g i j) <= hi.
Proof.
  intros data V shape lo hi g H E i j. unfold contour_grid in E. destruct (negb _); [discriminate|]. injection E as <-. cbn [snd]. unfold clip. cbn [fst snd]. unfold qmin, qmax. generalize (V (nth (i * snd shape + j) data bin0)). intros v.
  repeat match goal with |- context [if ?c then _ else _] => destruct c eqn:? end; rewrite ?qle_true, ?qle_false in *; split; qlra'.
Qed.
(** but not if levels of the contours are given: then the limits are ignored. *)
Theorem C65_levels : forall data V shape vlim, contour_grid data V shape vlim true = contour_grid data V shape (None, None) false.
Proof. reflexivity. Qed.
(** Maps of which bins were removed cannot be drawn; *)
Theorem C65_cutoff_refuted : forall data V nx ny vlim levels, (List.length data < nx * ny)%nat -> contour_grid data V (nx, ny) vlim levels = Err ValueErr.
Proof. intros data V nx ny vlim levels H. unfold contour_grid. cbn [fst snd]. destruct (Nat.eqb_spec (List.length data) (nx * ny)); [lia|]. reflexivity. Qed.
(** and maps with derived fields are sorted with x varying fastest: the points of a grid row are not at the same x. *)
Definition ex_tall : list bin := [gbin 0 0 1 0; gbin 0 1 1 0; gbin 0 2 1 0; gbin 1 0 1 0; gbin 1 1 1 0; gbin 1 2 1 0].
Theorem C65_sorted_refuted : exists g, contour_grid (sort_bins ex_tall) bM (2%nat, 3%nat) (None, None) false = Ok g /\ fst (fst (g 0%nat 0%nat)) = 0 /\ fst (fst (g 0%nat 1%nat)) = 1 /\ fst (fst (g 0%nat 2%nat)) = 0.
Proof. eexists. split; [reflexivity|]. split; [|split]; apply qeq_true; vm_compute; reflexivity. Qed.
Print Assumptions C65_sorted_refuted.
Example C65_ex : forall i j, (i < 2)%nat -> (j < 3)%nat -> let b := nth (i * 3 + j) ex_tall bin0 in bX b = 0 + NQ i * 1 /\ bY b = 0 + NQ j * 1.
Proof. intros i j Hi Hj. destruct i as [|[|i]]; [| |lia]; destruct j as [|[|[|j]]]; try lia; split; apply qeq_true; vm_compute; reflexivity. Qed.

(** ** C66: flow magnitudes *)
From Coq Require Import Lra.
Local Open Scope R_scope.
Theorem C66_absolute : forall b, 0 <= absolute_flow b /\ absolute_flow b * absolute_flow b = QR (bU b) * QR (bU b) + QR (bV b) * QR (bV b).
Proof.
  intros b. unfold absolute_flow. split; [apply sqrt_pos|]. apply sqrt_sqrt. pose proof (Rle_0_sqr (QR (bU b))) as H1. pose proof (Rle_0_sqr (QR (bV b))) as H2. unfold Rsqr in *. lra.
Qed.
Print Assumptions C66_absolute.
(** The field 'radial' is the flow along the circle around the given point, positive clockwise: for a bin at
    distance r in direction (x, y) it is the component of the flow along (y, -x) / r. *)
Theorem C66_clockwise : forall x0 y0 b, (bX b <> x0 \/ bY b <> y0) ->
  exists r, 0 < r /\ r * r = QR (bX b - x0) * QR (bX b - x0) + QR (bY b - y0) * QR (bY b - y0) /\
    radial_flow x0 y0 b = QR (bU b) * (QR (bY b - y0) / r) + QR (bV b) * (- QR (bX b - x0) / r).
Proof.
  intros x0 y0 b H. assert (QR (bX b - x0) <> 0 \/ QR (bY b - y0) <> 0) as HN.
  { rewrite !QR_sub. destruct H as [H|H]; [left|right]; intros K; apply H; apply QR_inj; lra. }
  destruct (atan2_dir (QR (bY b - y0)) (QR (bX b - x0)) HN) as (_ & r & Hr & X & Y). exists r. split; [exact Hr|].
  unfold radial_flow. cbv zeta. set (a := atan2 _ _) in *. split.
  - rewrite X, Y. pose proof (sin2_cos2 a) as S. unfold Rsqr in S. transitivity (r * r * (sin a * sin a + cos a * cos a)); [rewrite S; ring|ring].
  - rewrite X, Y. field. lra.
Qed.
Print Assumptions C66_clockwise.
(** So it is 0 for a flow straight away from the point, not the 'radial velocity from center of mass'. *)
Theorem C66_radial_refuted : forall x0 y0 b c, (bX b <> x0 \/ bY b <> y0) -> bU b = (c * (bX b - x0))%Qc -> bV b = (c * (bY b - y0))%Qc -> radial_flow x0 y0 b = 0.
Proof.
  intros x0 y0 b c H EU EV. destruct (C66_clockwise x0 y0 b H) as (r & Hr & _ & ->). rewrite EU, EV, !QR_mul. field. lra.
Qed.
Print Assumptions C66_radial_refuted.
Local Close Scope R_scope.

(** ** C67: maps of several files *)
Theorem C67_default_type_refuted : forall label files, view_flowmap_2d None label files = ([], Some TypeErr).
Proof. reflexivity. Qed.
(** Every file is drawn with the field asked for, if it has it (or it is one of the derived fields), except for the dissipation. *)
Theorem C67_draw : forall type label files, In type ["height"; "contour"]%string -> label <> "visc_diss"%string ->
  (forall fs, In fs files -> In label fs \/ In label ["flow"; "evaporation"; "grad_rho_x"; "grad_rho_y"]%string) ->
  view_flowmap_2d (Some type) label files = (map (fun _ => label) files, None).
Proof.
  intros type label files HT HL HF. unfold view_flowmap_2d. assert (existsb (String.eqb type) draw_types = true) as -> by (apply existsb_exists; exists type; split; [exact HT|apply String.eqb_refl]).
  induction files as [|fs files IH]; [reflexivity|]. cbn [draw_files map].
  assert (exists fs', add_label label fs = (label, fs') /\ In label fs') as (fs' & -> & Hin).
  { unfold add_label. destruct (String.eqb_spec label "flow") as [->|N1]; [eexists; split; [reflexivity|]; apply in_or_app; right; left; reflexivity|].
    destruct (String.eqb_spec label "visc_diss") as [->|N2]; [congruence|].
    destruct (String.eqb_spec label "evaporation") as [->|N3]; [eexists; split; [reflexivity|]; apply in_or_app; right; left; reflexivity|].
    destruct (String.eqb_spec label "grad_rho_x") as [->|N4]; [cbn [orb]; eexists; split; [reflexivity|]; apply in_or_app; right; left; reflexivity|].
    destruct (String.eqb_spec label "grad_rho_y") as [->|N5]; [cbn [orb]; eexists; split; [reflexivity|]; apply in_or_app; right; right; left; reflexivity|].
    cbn [orb]. exists fs. split; [reflexivity|]. destruct (HF fs (or_introl eq_refl)) as [?|K]; [assumption|]. exfalso. simpl in K. intuition congruence. }
  assert (existsb (String.eqb label) fs' = true) as -> by (apply existsb_exists; exists label; split; [exact Hin|apply String.eqb_refl]).
  rewrite IH by (intros; apply HF; right; assumption). reflexivity.
Qed.
Print Assumptions C67_draw.
(** For the dissipation only the first file is drawn: the name of the field is changed and then not found. *)
Theorem C67_dissipation_refuted : forall type fs fs2 files, In type ["height"; "contour"]%string -> ~ In "visc"%string fs2 ->
  view_flowmap_2d (Some type) "visc_diss" (fs :: fs2 :: files) = (["visc"%string], Some ValueErr).
Proof.
  intros type fs fs2 files HT HN. unfold view_flowmap_2d. assert (existsb (String.eqb type) draw_types = true) as -> by (apply existsb_exists; exists type; split; [exact HT|apply String.eqb_refl]).
  cbn [draw_files]. change (add_label "visc_diss" fs) with ("visc"%string, fs ++ ["visc"%string]). cbv iota beta. assert (existsb (String.eqb "visc") (fs ++ ["visc"%string]) = true) as -> by (rewrite existsb_app; apply Bool.orb_true_iff; right; reflexivity).
  change (add_label "visc" fs2) with ("visc"%string, fs2). cbv iota beta.
  assert (existsb (String.eqb "visc") fs2 = false) as ->; [|reflexivity]. destruct (existsb (String.eqb "visc") fs2) eqn:E; [|reflexivity]. exfalso. apply HN. apply existsb_exists in E. destruct E as (s & Hs & E). apply String.eqb_eq in E. subst s. exact Hs.
Qed.
Print Assumptions C67_dissipation_refuted.
(** Stream lines: the number of bins is taken one too large along both axes, so that no map of n x m bins can be arranged. *)
Theorem C67_streamlines_refuted : forall x0 y0 dx dy nx ny, 0 < dx -> 0 < dy -> (0 < nx)%nat -> (0 < ny)%nat ->
  let s := streamline_shape x0 (x0 + NQ (nx - 1) * dx) y0 (y0 + NQ (ny - 1) * dy) dx dy in (fst s * snd s <> Z.of_nat (nx * ny))%Z.
Proof.
  intros x0 y0 dx dy nx ny Hx Hy Hnx Hny. cbv zeta. unfold streamline_shape. cbn [fst snd].
  replace ((x0 + NQ (nx - 1) * dx - x0) / dx) with (NQ (nx - 1)) by (field; apply qpos_nz; exact Hx). replace ((y0 + NQ (ny - 1) * dy - y0) / dy) with (NQ (ny - 1)) by (field; apply qpos_nz; exact Hy).
  rewrite !qtrunc_nonneg by apply NQ_nonneg. unfold NQ. rewrite !qfloor_ZQ. nia.
Qed.
Print Assumptions C67_streamlines_refuted.
