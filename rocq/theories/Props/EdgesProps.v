(** Properties C52, C62 and C63: contact line edges in groups of frames. *)
From Coq Require Import String Permutation.
From Verif.Base Require Import QcX Res Np ListX Sort.
From Verif.Model Require Import Bins Flow GridAverage ContactLine Sample Edges.
From Verif.Spec Require Import GridSpec EdgesSpec.
From Verif.Proofs Require Import EdgesP EdgesCombineP.
Local Open Scope Qc_scope.
Local Open Scope list_scope.

(** ** C52: groups of frames *)
(** The windows of n frames: all of them, or disjoint ones. *)
Definition windows {A} (n : nat) (rolling : bool) (l : list A) : list (list A) :=
  if rolling then map (fun k => window k n l) (seq 0 (List.length l + 1 - n))
  else map (fun k => window (k * n) n l) (seq 0 (List.length l / n)).
Theorem C52_windows : forall A (frames : list A) n rolling, (0 < n)%nat ->
  get_grouped_data (map Ok frames) (Z.of_nat n) rolling = (windows n rolling frames, None).
Proof.
  intros A frames n rolling Hn. rewrite <- (app_nil_r (map Ok frames)). assert (forall r held, group (Z.of_nat n) r (@nil (res A)) held = ([], None)) as H by reflexivity.
  destruct rolling; [apply (group_rolling_all n frames None [] Hn (H true))|apply (group_blocks n None [] Hn (H false) (List.length frames) frames (le_n _))].
Qed.
Print Assumptions C52_windows.
(** A frame which cannot be used ends the run, after the windows of the frames before it. *)
Theorem C52_failing_frame : forall A (frames : list A) e more n rolling, (0 < n)%nat ->
  get_grouped_data (map Ok frames ++ Err e :: more) (Z.of_nat n) rolling = (windows n rolling frames, Some e).
Proof.
  intros A frames e more n rolling Hn. assert (forall r held, group (Z.of_nat n) r (Err e :: more) held = (@nil (list A), Some e)) as H by reflexivity.
  destruct rolling; [apply (group_rolling_all n frames (Some e) _ Hn (H true))|apply (group_blocks n (Some e) _ Hn (H false) (List.length frames) frames (le_n _))].
Qed.
Print Assumptions C52_failing_frame.
(** Groups of no frames or less: nothing. *)
Theorem C52_no_group : forall A (frames : list A) n rolling, (n <= 0)%Z -> get_grouped_data (map Ok frames) n rolling = ([], None).
Proof.
  intros A frames n rolling Hn. unfold get_grouped_data. generalize (@nil A). induction frames as [|a fs IH]; intros held; [reflexivity|]. cbn [map group].
  rewrite app_length. simpl. destruct (Z.eqb_spec (Z.of_nat (List.length held + 1)) n); [lia|]. apply IH.
Qed.
(** A window has n frames, in their order, without gaps. *)
Theorem C52_window : forall A (frames : list A) n rolling w, In w (windows n rolling frames) ->
  List.length w = n /\ exists before after, frames = before ++ w ++ after.
Proof.
  intros A frames n rolling w H.
  assert (exists k, (k + n <= List.length frames)%nat /\ w = window k n frames) as (k & Hk & ->).
  { unfold windows in H. destruct rolling; apply in_map_iff in H; destruct H as (k & <- & Hk); apply in_seq in Hk.
    - exists k. split; [lia|reflexivity].
    - destruct n as [|n]; [simpl in Hk; lia|]. exists (k * S n)%nat. split; [|reflexivity].
      assert ((k + 1) * S n <= List.length frames / S n * S n)%nat by (apply Nat.mul_le_mono_r; lia).
      pose proof (Nat.mul_div_le (List.length frames) (S n) ltac:(lia)). lia. }
  unfold window. split; [rewrite firstn_length, skipn_length; lia|]. exists (firstn k frames), (skipn n (skipn k frames)). rewrite !firstn_skipn. reflexivity.
Qed.
Print Assumptions C52_window.
(** Without rolling every frame is in one window, but the last (fewer than n) frames. *)
Theorem C52_blocks_cover : forall A (frames : list A) n, (0 < n)%nat ->
  exists rest, frames = concat (windows n false frames) ++ rest /\ (List.length rest < n)%nat.
Proof.
  intros A frames n Hn. exists (skipn (List.length frames / n * n) frames).
  assert (forall m, (m <= List.length frames / n)%nat -> concat (map (fun k => window (k * n) n frames) (seq 0 m)) = firstn (m * n) frames) as H.
  { induction m as [|m IH]; intros Hm; [reflexivity|]. rewrite seq_S, map_app, concat_app, IH by lia. cbn [map concat plus]. rewrite app_nil_r. unfold window.
    rewrite <- (firstn_skipn (m * n) (firstn (S m * n) frames)). rewrite firstn_firstn, skipn_firstn_comm. f_equal; f_equal; lia. }
  split; [cbn [windows]; unfold windows; rewrite H by lia; symmetry; apply firstn_skipn|].
  rewrite skipn_length. pose proof (Nat.div_mod (List.length frames) n ltac:(lia)). pose proof (Nat.mod_upper_bound (List.length frames) n ltac:(lia)). nia.
Qed.
Print Assumptions C52_blocks_cover.
Example C52_ex : fst (get_grouped_data (map Ok [1; 2; 3; 4; 5]%nat) 2 true) = [[1; 2]; [2; 3]; [3; 4]; [4; 5]]%nat /\
  fst (get_grouped_data (map Ok [1; 2; 3; 4; 5]%nat) 2 false) = [[1; 2]; [3; 4]]%nat.
Proof. split; reflexivity. Qed.

(** *** Fusing: each edge is moved along x, so that the last position of the left one and
    the first of the right one are half a bin left and right of 0. *)
Theorem C52_fuse : forall dx L R, rows (data L) <> [] -> rows (data R) <> [] ->
  (forall r, In r (rows (data L)) \/ In r (rows (data R)) -> List.length r = List.length fields) ->
  exists a b L' R', fuse_edges dx (L, R) = Ok (L', R') /\
    Forall2 (moved fields a 0) (rows (data L)) (rows (data L')) /\ Forall2 (moved fields b 0) (rows (data R)) (rows (data R')) /\
    info L' = info L /\ info R' = info R /\
    list_max (map (fld fields "X") (rows (data L'))) = Some (- (dx / ZQ 2)) /\ list_min (map (fld fields "X") (rows (data R'))) = Some (dx / ZQ 2).
Proof.
  intros dx L R HL HR H. assert (forall r, In r (rows (data L)) \/ In r (rows (data R)) -> (1 < List.length r)%nat) as H' by (intros r Hr; rewrite (H r Hr); simpl; lia).
  destruct (fuse_ok dx L R HL HR H') as (a & b & E & _ & _ & ML & MR). exists a, b, (move a 0 L), (move b 0 R). rewrite (half_div dx).
  split; [exact E|]. split; [apply move_moved; intros; apply H'; tauto|]. split; [apply move_moved; intros; apply H'; tauto|]. split; [reflexivity|]. split; [reflexivity|]. split; assumption.
Qed.
Print Assumptions C52_fuse.
Theorem C52_fuse_empty : forall dx L R, rows (data L) = [] \/ rows (data R) = [] -> fuse_edges dx (L, R) = Err ValueErr.
Proof.
  intros dx L R H. unfold fuse_edges. cbn [fst snd]. destruct (rows (data L)) as [|r l]; [reflexivity|]. destruct H as [H|H]; [discriminate|]. rewrite H. reflexivity.
Qed.

(** ** C62: averaged edges *)
(** What is made of the cells of a group of frames. *)
Definition placed (recenter : bool) (dx dy : Qc) (frames : list ((list bin * list bin) * finfo)) (edges : flow * flow) : Prop :=
  exists psl psr xl xr,
    edge_average_of SLeft dx dy (map (fun f => fst (fst f)) frames) psl xl (dy / ZQ 2) (rows (data (fst edges))) /\
    edge_average_of SRight dx dy (map (fun f => snd (fst f)) frames) psr xr (dy / ZQ 2) (rows (data (snd edges))) /\
    let ml := qmean (map fst psl) in let mr := qmean (map fst psr) in
    if recenter then snapped dx (- ((mr - ml) / ZQ 2)) xl /\ snapped dx ((mr - ml) / ZQ 2) xr
    else snapped dx ml xl /\ snapped dx mr xr.
Theorem C62_edges : forall recenter dx dy frames, 0 < dx -> 0 < dy -> dx <= ZQ 2 * dy -> Forall (edges_ok dx dy) frames -> frames <> [] ->
  exists fs edges, rmapM edge_frame frames = Ok fs /\ averaged_edges recenter (dx, dy) fs = Ok edges /\ placed recenter dx dy frames edges.
Proof.
  intros recenter dx dy frames Hdx Hdy Hxy HF Hne.
  destruct (averaged_edges_ok recenter dx dy frames Hdx Hdy Hxy HF Hne) as (fs & L & R & psl & psr & xl & xr & E & EA & AL & AR & [X1 X2] & _).
  exists fs, (L, R). split; [exact E|]. split; [exact EA|]. exists psl, psr, xl, xr. split; [exact AL|]. split; [exact AR|]. cbv zeta.
  assert (forall q, q / ZQ 2 = 1 / ZQ 2 * q) as HH by (intros; field; discriminate).
  unfold edge_positions in X1, X2. destruct recenter; cbn [fst snd] in X1, X2; subst xl xr; rewrite ?(HH (qmean (map fst psr) - qmean (map fst psl))); split; apply coord_on_grid_spec; exact Hdx.
Qed.
Print Assumptions C62_edges.
(** The whole run: one pair of edges for each window of frames. *)
Theorem C62_run : forall rolling recenter dx dy n frames, 0 < dx -> 0 < dy -> dx <= ZQ 2 * dy -> (0 < n)%nat -> Forall (edges_ok dx dy) frames ->
  exists items, get_averaged_contact_line_edges false (map Ok frames) (Z.of_nat n) rolling recenter (dx, dy) = (items, None) /\
    Forall2 (placed recenter dx dy) (windows n rolling frames) items.
Proof.
  intros rolling recenter dx dy n frames Hdx Hdy Hxy Hn HF. unfold get_averaged_contact_line_edges.
  assert ((negb rolling && (Z.of_nat n =? 0)%Z)%bool = false) as -> by (destruct rolling; [reflexivity|]; simpl; apply Z.eqb_neq; lia).
  rewrite map_map. cbn [rbind].
  assert (exists fs, rmapM edge_frame frames = Ok fs) as (fs & EF).
  { destruct frames as [|f0 fr]; [exists []; reflexivity|]. destruct (C62_edges recenter dx dy (f0 :: fr) Hdx Hdy Hxy HF ltac:(discriminate)) as (fs & ed & E & _). eauto. }
  change (map (fun x => edge_frame x) frames) with (map edge_frame frames). rewrite (rmapM_as_map _ _ _ EF), (C52_windows _ fs n rolling Hn). cbn [fst snd].
  assert (forall ws, (forall w, In w ws -> w <> [] /\ Forall (edges_ok dx dy) w) -> forall wf, Forall2 (fun w f => rmapM edge_frame w = Ok f) ws wf ->
    exists items, rmapM (averaged_edges recenter (dx, dy)) wf = Ok items /\ Forall2 (placed recenter dx dy) ws items) as G.
  { intros ws HW wf H. induction H as [|w f ws wf H H2 IH]; [exists []; split; [reflexivity|constructor]|].
    destruct (HW w (or_introl eq_refl)) as [W1 W2]. destruct (C62_edges recenter dx dy w Hdx Hdy Hxy W2 W1) as (f' & ed & E1 & E2 & E3).
    destruct (IH (fun w' Hw' => HW w' (or_intror Hw'))) as (items & E4 & E5). exists (ed :: items). rewrite H in E1. injection E1 as <-. cbn [rmapM]. rewrite E2. cbn [rbind]. rewrite E4. split; [reflexivity|constructor; assumption]. }
  destruct (G (windows n rolling frames)) with (wf := windows n rolling fs) as (items & E & HP).
  - intros w Hw. destruct (C52_window _ frames n rolling w Hw) as [L (b & a & Ew)]. split; [intros ->; simpl in L; lia|]. rewrite Ew in HF. apply Forall_app in HF. destruct HF as [_ HF]. apply Forall_app in HF. tauto.
  - assert (List.length fs = List.length frames) as HL by (apply (rmapM_length _ _ _ EF)).
    assert (forall (g : nat -> nat) m, Forall2 (fun w f => rmapM edge_frame w = Ok f) (map (fun k => window (g k) n frames) m) (map (fun k => window (g k) n fs) m)) as GG.
    { intros g m. induction m as [|k m IH]; cbn [map]; constructor; [apply rmapM_window; exact EF|exact IH]. }
    unfold windows. rewrite HL. destruct rolling; [apply (GG (fun k => k))|apply (GG (fun k => (k * n)%nat))].
  - exists items. split; [apply run_items_ok; exact E|exact HP].
Qed.
Print Assumptions C62_run.
(** Recentred edges are at opposite positions, unless half of their distance is a multiple of the bin size. *)
Theorem C62_recentre_symmetric : forall dx x, 0 < dx -> (forall k, x <> ZQ k * dx) -> coord_on_grid (- x) dx = - coord_on_grid x dx.
Proof. intros dx x H. apply coord_symmetric. exact H. Qed.
Theorem C62_recentre_refuted : forall dx k, 0 < dx -> coord_on_grid (- (ZQ k * dx)) dx = - coord_on_grid (ZQ k * dx) dx + dx.
Proof.
  intros dx k H. replace (- (ZQ k * dx)) with (ZQ (- k) * dx) by (rewrite ZQ_opp; ring). rewrite !coord_multiple by exact H. rewrite ZQ_opp.
  transitivity (- (ZQ k * dx) - half dx + (half dx + half dx)); [ring|]. rewrite <- (half_half dx). ring.
Qed.
Print Assumptions C62_recentre_refuted.

(** Two frames: left edges of 2 x 2 and 1 x 2 bins, right edges of 1 x 2 bins. *)
Definition ebin (x y n t m u v : Z) : bin := mkBin (ZQ x) (ZQ y) (ZQ n) (ZQ t) (ZQ m) (ZQ u) (ZQ v).
Definition exl1 := [ebin 3 0 1 10 2 1 0; ebin 4 0 2 10 4 3 0; ebin 3 1 1 10 2 1 0; ebin 4 1 2 10 4 1 0].
Definition exl2 := [ebin 5 0 2 20 2 3 0; ebin 5 1 2 20 4 5 0].
Definition exr1 := [ebin 9 0 1 10 2 1 0; ebin 9 1 1 10 2 1 0].
Definition exr2 := [ebin 8 0 1 10 2 1 0; ebin 8 1 1 10 2 1 0].
Definition ex_info := mkFinfo (Some (20, 20)%Z) (Some (0, 0)) (Some (1, 1)) (Some 400%Z).
Definition ex_frames := [((exl1, exr1), ex_info); ((exl2, exr2), ex_info)].
Ltac edge_grid x0 y0 nx ny :=
  exists (ZQ x0), (ZQ y0), nx, ny; split; [lia|]; split; [lia|]; eexists; split; [apply Permutation_refl|];
  split; [reflexivity|]; split; [intros r Hr; cbn in Hr; repeat (destruct Hr as [<- | Hr]; [reflexivity|]); destruct Hr|];
  intros i j Hi Hj; destruct j as [|[|j]]; try lia; destruct i as [|[|i]]; try lia; split; apply qeq_true; vm_compute; reflexivity.
Example C62_ex_hyp : Forall (edges_ok 1 1) ex_frames /\ 1 <= ZQ 2 * 1.
Proof.
  split; [|discriminate]. unfold ex_frames. repeat constructor; cbn [fst snd]; try reflexivity.
  - edge_grid 3%Z 0%Z 2%nat 2%nat.
  - edge_grid 9%Z 0%Z 1%nat 2%nat.
  - edge_grid 5%Z 0%Z 1%nat 2%nat.
  - edge_grid 8%Z 0%Z 1%nat 2%nat.
Qed.
(** The left edges end at 4 and 5, the averaged one in the bin around 9/2; flow 3 with mass 4 and 2. *)
Example C62_ex_values : match rmapM edge_frame ex_frames with
  | Ok fs => match averaged_edges false (1, 1) fs with
             | Ok (L, R) => map (fun r => map this (r : list Qc)) (rows (data L)) =
                 map (fun r => map this r) [[Q2Qc (7 # 2); Q2Qc (1 # 2); 1; 0; 1; Q2Qc (1 # 2); ZQ 10]; [Q2Qc (9 # 2); Q2Qc (1 # 2); ZQ 3; 0; ZQ 3; ZQ 2; ZQ 15];
                  [Q2Qc (7 # 2); Q2Qc (3 # 2); 1; 0; 1; Q2Qc (1 # 2); ZQ 10]; [Q2Qc (9 # 2); Q2Qc (3 # 2); ZQ 3; 0; ZQ 4; ZQ 2; ZQ 15]]
             | Err _ => False end
  | Err _ => False end.
Proof. vm_compute. reflexivity. Qed.

(** What is false. *)
(** The number of bins in a layer is counted with half of the wrong bin size: if dx > 2 dy, layers are
    taken for one, and the averaging fails or mixes places. *)
Theorem C62_wide_bins_refuted : get_cut_shape (ZQ 3) 1 (map ZQ [0; 0; 1; 1; 2; 2]%Z) = Ok (4%nat, 1%nat).
Proof. vm_compute. reflexivity. Qed.
(** Edges of a single layer, as those of the default extraction area, or without cells cannot be used. *)
Theorem C62_single_layer_refuted : forall cells d fi dx dy y, f_spacing fi = Some (dx, dy) -> 0 < dx -> 0 < dy -> d <> SOther -> (forall b, In b cells -> bY b = y) ->
  add_adjusted_flow cells d fi = Err IndexErr.
Proof.
  intros cells d fi dx dy y Hs Hdx Hdy Hd HY. unfold add_adjusted_flow. rewrite Hs.
  assert (exists a cs, adjust_cell_coordinates cells d = Ok (a, cs) /\ exists y', forall b, In b cs -> bY b = y') as (a & cs & -> & y' & HY').
  { unfold adjust_cell_coordinates, edge_x. destruct d; [| |tauto]; cbn [rbind]; eexists _, _; (split; [reflexivity|]); eexists; intros b Hb; apply in_map_iff in Hb; destruct Hb as (b0 & <- & Hb); cbn [bY]; rewrite (HY b0 Hb); reflexivity. }
  cbn [rbind fst snd]. unfold sort_table. cbn [labels rows index_of fields String.eqb Ascii.eqb Bool.eqb option_map]. set (le := fun _ _ => _). cbn [rbind rows].
  assert (forall v, In v (map (col 1) (isort le (map row_of cs))) -> v = y') as HC.
  { intros v Hv. apply in_map_iff in Hv. destruct Hv as (r & <- & Hr). apply isort_in in Hr. apply in_map_iff in Hr. destruct Hr as (b & <- & Hb). apply HY'. exact Hb. }
  assert (forall vs, (forall v, In v vs -> v = y') -> same_row y' dx dy vs = Err IndexErr) as HS.
  { intros vs H. replace vs with (repeat y' (List.length vs) ++ []); [rewrite same_row_const by assumption; reflexivity|]. rewrite app_nil_r. symmetry. clear -H. induction vs as [|v vs IH]; [reflexivity|]. simpl. rewrite (H v (or_introl eq_refl)), IH at 1; [reflexivity|]. intros; apply H; right; assumption. }
  unfold get_cut_shape. destruct (map (col 1) (isort le (map row_of cs))) as [|v vs]; [reflexivity|].
  rewrite (HC v (or_introl eq_refl)), HS; [reflexivity|]. intros w Hw. apply HC. right. exact Hw.
Qed.
Print Assumptions C62_single_layer_refuted.
(** A group which cannot be averaged ends the run, after the groups before it. *)
Theorem C62_failing_group : forall frames n rolling recenter spacing before w after fin outs e, (rolling = true \/ n <> 0%Z) ->
  get_grouped_data (map (fun f => do x <- f; edge_frame x) frames) n rolling = (before ++ w :: after, fin) ->
  rmapM (averaged_edges recenter spacing) before = Ok outs -> averaged_edges recenter spacing w = Err e ->
  get_averaged_contact_line_edges false frames n rolling recenter spacing = (outs, Some e).
Proof.
  intros frames n rolling recenter spacing before w after fin outs e Hn HG HB HW. unfold get_averaged_contact_line_edges.
  assert ((negb rolling && Z.eqb n 0)%bool = false) as ->. { destruct Hn as [-> |Hn]; [reflexivity|]. apply Z.eqb_neq in Hn. rewrite Hn. apply Bool.andb_false_r. }
  rewrite HG. cbn [fst snd]. revert outs HB. clear HG. induction before as [|b before IH]; intros outs HB; cbn [rmapM] in HB.
  - injection HB as <-. cbn [app run_items]. rewrite HW. reflexivity.
  - destruct (averaged_edges recenter spacing b) as [x|] eqn:E; [|discriminate]. cbn [rbind] in HB. destruct (rmapM (averaged_edges recenter spacing) before) as [xs|]; [|discriminate].
    cbn [rbind] in HB. injection HB as <-. cbn [app run_items]. rewrite E, (IH xs eq_refl). reflexivity.
Qed.
Print Assumptions C62_failing_group.
(** quiet=True: the run fails for all input. *)
Theorem C62_quiet_refuted : forall frames n rolling recenter spacing, get_averaged_contact_line_edges true frames n rolling recenter spacing = ([], Some UnboundErr).
Proof. reflexivity. Qed.

(** ** C63: recombined maps *)
(** Combining two edges with bins at the same grid: the map covers both (and no more), moved by half a bin; every
    bin has the values of the edges at its place: merged where both have one. *)
Theorem C63_combined : forall gx gy dx dy L R, 0 < dx -> 0 < dy -> lattice_map fields gx gy dx dy L -> lattice_map fields gx gy dx dy R ->
  exists out x0 y0 nx ny, combine_flow_data (dx, dy) (L, R) = Ok out /\ labels (data out) = fields /\ (0 < nx)%nat /\ (0 < ny)%nat /\
    f_shape (info out) = Some (Z.of_nat nx, Z.of_nat ny) /\ f_spacing (info out) = Some (dx, dy) /\
    regular fields (x0 - dx / ZQ 2) (y0 - dy / ZQ 2) dx dy nx ny (rows (data out)) /\
    (let both := rows (data L) ++ rows (data R) in
     list_min (map (fld fields "X") both) = Some x0 /\ list_max (map (fld fields "X") both) = Some (x0 + NQ (nx - 1) * dx) /\
     list_min (map (fld fields "Y") both) = Some y0 /\ list_max (map (fld fields "Y") both) = Some (y0 + NQ (ny - 1) * dy)) /\
    forall r, In r (rows (data out)) ->
      let vl l := value_at fields (rows (data L)) l (fld fields "X" r + dx / ZQ 2) (fld fields "Y" r + dy / ZQ 2) in
      let vr l := value_at fields (rows (data R)) l (fld fields "X" r + dx / ZQ 2) (fld fields "Y" r + dy / ZQ 2) in
      (forall l, In l ["N"; "M"]%string -> merged_mean (vl l) (vr l) (fld fields l r)) /\
      (forall l w, In (l, w) [("U", "M"); ("V", "M"); ("T", "N")]%string -> merged_weighted (vl l) (vl w) (vr l) (vr w) (fld fields l r)).
Proof. intros gx gy dx dy L R. rewrite (half_div dx), (half_div dy). apply combine_spec. Qed.
Print Assumptions C63_combined.
(** If no bins overlap the totals (mass, momentum, ...) are those of both edges. *)
Theorem C63_conserved : forall gx gy dx dy L R, 0 < dx -> 0 < dy -> lattice_map fields gx gy dx dy L -> lattice_map fields gx gy dx dy R -> apart (rows (data L)) (rows (data R)) ->
  exists out, combine_flow_data (dx, dy) (L, R) = Ok out /\
    forall l w, In l ["N"; "M"; "U"; "V"; "T"]%string -> In w ["N"; "M"]%string ->
      qsum (map (fld fields l) (rows (data out))) = qsum (map (fld fields l) (rows (data L))) + qsum (map (fld fields l) (rows (data R))) /\
      qsum (map (fun r => fld fields l r * fld fields w r) (rows (data out))) =
      qsum (map (fun r => fld fields l r * fld fields w r) (rows (data L))) + qsum (map (fun r => fld fields l r * fld fields w r) (rows (data R))).
Proof.
  intros gx gy dx dy L R Hdx Hdy HL HR HA. destruct (combine_apart gx gy dx dy L R Hdx Hdy HL HR HA) as (out & E & _ & H). exists out. split; [exact E|].
  intros l w Hl Hw. apply H; unfold fields; simpl in Hl, Hw; destruct Hw as [<- | [<- | []]]; destruct Hl as [<- | [<- | [<- | [<- | [<- | []]]]]]; try (intros K; discriminate K); simpl; tauto.
Qed.
Print Assumptions C63_conserved.
(** From the cells of the frames to the map: it can always be made; with fuse=True the edges do not overlap and the totals are conserved. *)
Theorem C63_extracted : forall recenter fuse dx dy frames, 0 < dx -> 0 < dy -> dx <= ZQ 2 * dy -> Forall (edges_ok dx dy) frames -> frames <> [] ->
  exists fs L R out, rmapM edge_frame frames = Ok fs /\ averaged_edges recenter (dx, dy) fs = Ok (L, R) /\ placed recenter dx dy frames (L, R) /\
    extract_one fuse (dx, dy) (L, R) = Ok out /\ f_spacing (info out) = Some (dx, dy) /\
    (exists x0 y0 nx ny, (0 < nx)%nat /\ (0 < ny)%nat /\ f_shape (info out) = Some (Z.of_nat nx, Z.of_nat ny) /\ regular fields x0 y0 dx dy nx ny (rows (data out))) /\
    (fuse = true -> forall l w, In l ["N"; "M"; "U"; "V"; "T"]%string -> In w ["N"; "M"]%string ->
      qsum (map (fld fields l) (rows (data out))) = qsum (map (fld fields l) (rows (data L))) + qsum (map (fld fields l) (rows (data R))) /\
      qsum (map (fun r => fld fields l r * fld fields w r) (rows (data out))) =
      qsum (map (fun r => fld fields l r * fld fields w r) (rows (data L))) + qsum (map (fun r => fld fields l r * fld fields w r) (rows (data R)))).
Proof.
  intros recenter fuse dx dy frames Hdx Hdy Hxy HF Hne.
  destruct (averaged_edges_ok recenter dx dy frames Hdx Hdy Hxy HF Hne) as (fs & L & R & psl & psr & xl & xr & E & EA & _ & _ & _ & LL & LR).
  assert (placed recenter dx dy frames (L, R)) as HP by (destruct (C62_edges recenter dx dy frames Hdx Hdy Hxy HF Hne) as (fs' & ed & E1 & E2 & E3); rewrite E in E1; injection E1 as <-; rewrite EA in E2; injection E2 as <-; exact E3).
  destruct fuse.
  - destruct (fuse_lattice dx dy L R Hdx Hdy LL LR) as (a & b & EF & HA & LL' & LR').
    destruct (C63_combined _ _ dx dy _ _ Hdx Hdy LL' LR') as (out & x0 & y0 & nx & ny & EO & _ & N1 & N2 & SH & SP & RG & _).
    destruct (C63_conserved _ _ dx dy _ _ Hdx Hdy LL' LR' HA) as (out' & EO' & HT). rewrite EO in EO'. injection EO' as <-.
    exists fs, L, R, out. split; [exact E|]. split; [exact EA|]. split; [exact HP|]. split; [unfold extract_one; cbn [fst]; rewrite EF; exact EO|]. split; [exact SP|].
    split; [exists (x0 - dx / ZQ 2), (y0 - dy / ZQ 2), nx, ny; auto|]. intros _ l w Hl Hw. destruct (HT l w Hl Hw) as [T1 T2]. rewrite T1, T2.
    assert (forall c f, map (fld fields l) (rows (data (move c 0 f))) = map (fld fields l) (rows (data f)) /\
       map (fun r => fld fields l r * fld fields w r) (rows (data (move c 0 f))) = map (fun r => fld fields l r * fld fields w r) (rows (data f))) as M.
    { assert (l <> "X" /\ l <> "Y" /\ w <> "X" /\ w <> "Y")%string as (X1 & X2 & X3 & X4).
      { simpl in Hl, Hw. destruct Hw as [<- | [<- | []]]; destruct Hl as [<- | [<- | [<- | [<- | [<- | []]]]]]; repeat split; intros K; discriminate K. }
      intros c f. rewrite move_eq. cbn [data rows]. rewrite !map_map. split; apply map_ext; intros r; rewrite ?mv_fld by assumption; reflexivity. }
    rewrite !(proj1 (M _ _)), !(proj2 (M _ _)). split; reflexivity.
  - destruct (C63_combined _ _ dx dy _ _ Hdx Hdy LL LR) as (out & x0 & y0 & nx & ny & EO & _ & N1 & N2 & SH & SP & RG & _).
    exists fs, L, R, out. split; [exact E|]. split; [exact EA|]. split; [exact HP|]. split; [exact EO|]. split; [exact SP|].
    split; [exists (x0 - dx / ZQ 2), (y0 - dy / ZQ 2), nx, ny; auto|]. discriminate.
Qed.
Print Assumptions C63_extracted.
(** The example: total mass 3 + 1 + 4 + 1 of the left and 2 + 2 of the right edge. *)
Example C63_ex : match rmapM edge_frame ex_frames with
  | Ok fs => match averaged_edges false (1, 1) fs with
             | Ok e => match extract_one true (1, 1) e with
                       | Ok out => map (fun r => map this (r : list Qc)) (map (fun r => [fld fields "X" r; fld fields "Y" r; fld fields "M" r]) (rows (data out))) =
                           map (fun r => map this r) [[ZQ (-2); 0; 1]; [ZQ (-1); 0; ZQ 3]; [0; 0; ZQ 2]; [ZQ (-2); 1; 1]; [ZQ (-1); 1; ZQ 4]; [0; 1; ZQ 2]]
                       | Err _ => False end
             | Err _ => False end
  | Err _ => False end.
Proof. vm_compute. reflexivity. Qed.

(** What is false. *)
(** No file is ever written: writing the first map fails. *)
Theorem C63_never_written_refuted : forall fuse spacing edges, extract_contact_line_bins fuse spacing edges = Ok tt -> edges = ([], None).
Proof. intros fuse spacing [[|e es] [x|]]; cbn [extract_contact_line_bins]; try discriminate; [reflexivity| |]; destruct (extract_one fuse spacing e); discriminate. Qed.
(** Sampling the edges ends the program at the first value. *)
Theorem C63_sampling_refuted : forall nlabels rolling average dt edges, (0 < nlabels)%nat -> fst edges <> [] -> sample_contact_line_edges nlabels rolling average dt edges = Err SysExit.
Proof. intros nlabels rolling average dt [[|e es] fin] Hn H; [simpl in H; tauto|]. destruct nlabels; [lia|]. destruct fin; reflexivity. Qed.
(** Without labels the times are returned: group i, with frames from number i (rolling) or i * n, is at the time of its middle frame. *)
Theorem C63_times : forall rolling n dt items i, (i < List.length items)%nat ->
  exists ts, sample_contact_line_edges 0 rolling (Z.of_nat n) dt (items, None) = Ok ts /\ List.length ts = List.length items /\
    nth i ts 0 = NQ ((if rolling then i else i * n) + n / 2)%nat * dt.
Proof.
  intros rolling n dt items i Hi. exists (map (sample_time rolling (Z.of_nat n) dt) (seq 0 (List.length items))).
  split; [destruct items; reflexivity|]. split; [rewrite map_length, seq_length; reflexivity|].
  rewrite (nth_indep _ 0 (sample_time rolling (Z.of_nat n) dt 0%nat)) by (rewrite map_length, seq_length; exact Hi). rewrite map_nth, seq_nth by exact Hi. cbn [Nat.add]. unfold sample_time.
  assert (ZQ (qfloor (ZQ (Z.of_nat n) / ZQ 2)) = NQ (n / 2)) as ->.
  { unfold NQ. apply f_equal. rewrite Nat2Z.inj_div. apply qfloor_unique.
    - apply qle_div_iff; [apply qlt_true; reflexivity|]. rewrite <- ZQ_mul. apply ZQ_le. change (Z.of_nat 2) with 2%Z. pose proof (Z.div_mod (Z.of_nat n) 2 ltac:(lia)). pose proof (Z.mod_pos_bound (Z.of_nat n) 2 ltac:(lia)). lia.
    - rewrite <- ZQ_1, <- ZQ_add. apply Qcnot_le_lt. intros C. apply qle_div_iff in C; [|apply qlt_true; reflexivity]. rewrite <- ZQ_mul in C. apply (proj1 (ZQ_le _ _)) in C.
      pose proof (Z.mod_pos_bound (Z.of_nat n) 2 ltac:(lia)). pose proof (Z.div_mod (Z.of_nat n) 2 ltac:(lia)). change (Z.of_nat 2) with 2%Z in C. lia. }
  rewrite NQ_add. destruct rolling; [ring|]. assert (NQ (i * n) = NQ i * ZQ (Z.of_nat n)) as -> by (unfold NQ; rewrite Nat2Z.inj_mul, ZQ_mul; reflexivity). ring.
Qed.
Print Assumptions C63_times.
(** Overlapping edges: masses are averaged, not added, so that a bin which both edges hold counts once. *)
Theorem C63_overlap : forall a, a <> 0 -> merged_mean a a a.
Proof.
  intros a H. split; [|split; intros; subst; tauto]. intros _ _. change (ZQ 2) with (1 + 1). field. intros K. discriminate K.
Qed.
