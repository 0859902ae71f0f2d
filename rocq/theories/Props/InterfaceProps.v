(** Properties C25-C28: the droplet interface. *)
From Verif.Base Require Import QcX Res Np Sort.
From Verif.Model Require Import Bins Flow Interface.
From Verif.Spec Require Import FlowSpec InterfaceSpec.
From Verif.Proofs Require Import FlowP LongestRunP InterfaceP.

(** ** C25: search from the walls *)
Theorem C25_outermost_droplet_cells : forall V cutoff r data nb lo hi,
  exists pairs ys, interface_walls V data r cutoff nb lo hi = Ok pairs /\ increasing ys /\
    (forall y, In y ys <-> inside lo hi y /\ exists i, in_layer data y i /\ droplet_cell V data cutoff r nb i) /\
    Forall2 (fun y p => leftmost data (droplet_cell V data cutoff r nb) y (fst p) /\
                        rightmost data (droplet_cell V data cutoff r nb) y (snd p)) ys pairs.
Proof. exact walls_spec. Qed.
Print Assumptions C25_outermost_droplet_cells.

(** This is what get_interface yields for explicit cutoff and radius. *)
Theorem C25_get_interface : forall V data fi c r nb lo hi,
  get_interface V data fi (mkIopts (Some c) (Some r) nb false (lo, hi)) = interface_walls V data r c nb lo hi.
Proof. reflexivity. Qed.
Print Assumptions C25_get_interface.

(** A concrete map: 4 x 2 cells, of which one in the upper layer is isolated. *)
Definition q (n : Z) (d : positive) : Qc := Q2Qc (n # d).
Definition mb (x y m : Z) : bin := mkBin (ZQ x) (ZQ y) 0 0 (ZQ m) 0 0.
Definition ex_map : list bin := [mb 0 0 0; mb 1 0 5; mb 2 0 7; mb 3 0 6; mb 0 1 0; mb 1 1 0; mb 2 1 8; mb 3 1 0].
Example C25_ex : interface_walls bM ex_map 1 (q 4 1) 1 None None = Ok [(1, 3); (6, 6)]%nat.
Proof. vm_compute. reflexivity. Qed.
Example C25_ex_isolated : interface_walls bM [mb 0 0 9; mb 1 0 0; mb 2 0 8; mb 3 0 8] 1 (q 4 1) 1 None None = Ok [(2, 3)]%nat.
Proof. vm_compute. reflexivity. Qed.

(** ** C26: search for the longest connected stretch *)
(** The stretch found in a pattern of filled cells. *)
Theorem C26_longest_run : forall f, match find_edges f with
  | None => forall c, In c f -> c = false
  | Some (a, b) => longest_run f a b
  end.
Proof. exact find_edges_spec. Qed.
Print Assumptions C26_longest_run.

(** On a whole map in a periodic box [0, box) whose layers are stored in order
    of x.  [V] is a field other than the x coordinate. *)
Theorem C26_interface_is_longest_run : forall V cutoff r, (forall b d, V (shift_x d b) = V b) -> forall box,
  0 <= r -> r <= box -> forall data nb lo hi,
  (forall c, In c data -> 0 <= bX c /\ bX c < box) ->
  (forall i j b c, (i < j)%nat -> nth_error data i = Some b -> nth_error data j = Some c -> bY b = bY c -> bX b < bX c) ->
  exists pairs ys, interface_longest V data box r cutoff nb lo hi = Ok pairs /\ increasing ys /\
    (forall y, In y ys <-> inside lo hi y /\ exists i, in_layer data y i /\ periodic_droplet_cell V data box cutoff r nb i) /\
    Forall2 (fun y p => exists cells flags a b,
      (forall i, In i cells <-> in_layer data y i) /\
      (forall k l i j, (k < l)%nat -> nth_error cells k = Some i -> nth_error cells l = Some j -> x_of data i < x_of data j) /\
      Forall2 (fun i f => f = true <-> periodic_droplet_cell V data box cutoff r nb i) cells flags /\
      longest_run flags a b /\ nth_error cells a = Some (fst p) /\ nth_error cells b = Some (snd p)) ys pairs.
Proof. exact longest_spec. Qed.
Print Assumptions C26_interface_is_longest_run.

Theorem C26_get_interface : forall V data fi c r nb lo hi bx by_, size fi = Some (bx, by_) ->
  get_interface V data fi (mkIopts (Some c) (Some r) nb true (lo, hi)) = interface_longest V data bx r c nb lo hi.
Proof. intros. unfold get_interface. simpl. rewrite H. reflexivity. Qed.
Print Assumptions C26_get_interface.

(** The grid information is required. *)
Theorem C26_needs_size : forall V data fi c r nb lims, size fi = None ->
  get_interface V data fi (mkIopts (Some c) (Some r) nb true lims) = Err ValueErr.
Proof. intros. unfold get_interface. simpl. rewrite H. reflexivity. Qed.
Print Assumptions C26_needs_size.

Example C26_ex_wraps : interface_longest bM [mb 0 0 5; mb 1 0 5; mb 2 0 0; mb 3 0 0; mb 4 0 5] (q 5 1) 1 (q 4 1) 1 None None = Ok [(4, 1)]%nat.
Proof. vm_compute. reflexivity. Qed.
Example C26_ex_pattern : find_edges [true; true; false; true; false; true] = Some (5, 1)%nat /\ find_edges [true; true] = Some (0, 1)%nat
  /\ find_edges [false] = None.
Proof. repeat split. Qed.

(** Finding: if a layer is not stored in order of x, a wrong cell is returned:
    here only the cell at x = 2 is filled, and the cell at x = 1 is yielded. *)
Theorem C26_unsorted_layer_refuted : exists data, (forall c, In c data -> 0 <= bX c /\ bX c < q 3 1) /\
  interface_longest bM data (q 3 1) 1 (q 4 1) 0 None None = Ok [(2, 2)]%nat /\
  ~ periodic_droplet_cell bM data (q 3 1) (q 4 1) 1 0 2.
Proof.
  exists [mb 2 0 9; mb 0 0 0; mb 1 0 0]. split; [|split].
  - intros c Hc. simpl in Hc. destruct Hc as [<-|[<-|[<-|[]]]]; split; apply qle_true || apply qlt_true; vm_compute; reflexivity.
  - vm_compute. reflexivity.
  - intros (b & js & Hb & HV & _). simpl in Hb. inversion Hb; subst b. apply qle_true in HV. vm_compute in HV. discriminate.
Qed.
Print Assumptions C26_unsorted_layer_refuted.

(** ** C27: defaults *)
Theorem C27_default_cutoff : forall V data fi r nb lg lims vmin vmax,
  In vmin (map V data) -> In vmax (map V data) -> (forall v, In v (map V data) -> vmin <= v /\ v <= vmax) -> vmin < vmax ->
  get_interface V data fi (mkIopts None r nb lg lims) =
  get_interface V data fi (mkIopts (Some ((vmin + vmax) / q 2 1)) r nb lg lims).
Proof.
  intros V data fi r nb lg lims vmin vmax H1 H2 H3 H4. unfold get_interface, get_cutoff. simpl cutoff_opt. simpl radius_opt. simpl bins_opt.
  rewrite (proj2 (list_min_spec (map V data) vmin)) by (split; auto; intros; apply H3; auto).
  rewrite (proj2 (list_max_spec (map V data) vmax)) by (split; auto; intros; apply H3; auto).
  destruct (qeq_spec vmin vmax) as [E|]; [exfalso; subst; qlra|]. simpl rbind.
  replace ((vmin + vmax) / q 2 1) with (Q2Qc (1 # 2) * (vmin + vmax)); [reflexivity|].
  unfold Qcdiv. replace (/ q 2 1) with (Q2Qc (1 # 2)) by (apply qeq_true; vm_compute; reflexivity). ring.
Qed.
Print Assumptions C27_default_cutoff.

(** Nothing is yielded for a homogeneous system. *)
Theorem C27_homogeneous : forall V data fi r nb lg lims v, data <> [] -> (forall b, In b data -> V b = v) ->
  get_interface V data fi (mkIopts None r nb lg lims) = Ok [].
Proof.
  intros V data fi r nb lg lims v N H. unfold get_interface, get_cutoff. simpl cutoff_opt.
  assert (In v (map V data)) as Hv by (destruct data as [|b data]; [congruence|]; left; apply H; left; auto).
  assert (forall w, In w (map V data) -> w = v) as Hw by (intros w Hw; apply in_map_iff in Hw as (b & <- & Hb); auto).
  rewrite (proj2 (list_min_spec (map V data) v)) by (split; auto; intros y Hy; rewrite (Hw y Hy); qlra').
  rewrite (proj2 (list_max_spec (map V data) v)) by (split; auto; intros y Hy; rewrite (Hw y Hy); qlra').
  rewrite qeq_refl. reflexivity.
Qed.
Print Assumptions C27_homogeneous.

(** An empty map without a given cutoff is an error (ValueError of np.min). *)
Theorem C27_empty : forall V fi r nb lg lims, get_interface V [] fi (mkIopts None r nb lg lims) = Err ValueErr.
Proof. reflexivity. Qed.
Print Assumptions C27_empty.

(** With a given cutoff and radius an empty map has no interface. *)
Theorem C27_empty_with_cutoff : forall V fi c r nb lims, get_interface V [] fi (mkIopts (Some c) (Some r) nb false lims) = Ok [].
Proof. reflexivity. Qed.
Print Assumptions C27_empty_with_cutoff.

Lemma qdiff_in l d : increasing l -> In d (qdiff l) -> exists x y, In x l /\ In y l /\ x < y /\ d = y - x.
Proof.
  induction 1 as [|x l Hx Hl IH]; simpl; [tauto|]. destruct l as [|y l]; simpl; [tauto|]. intros [<-|H].
  - exists x, y. simpl; repeat split; auto. apply Hx; left; auto.
  - destruct (IH H) as (u & v & Hu & Hv & Huv & ->). exists u, v. simpl in *. repeat split; auto.
Qed.
Lemma qdiff_le l x y : increasing l -> In x l -> In y l -> x < y -> exists d, In d (qdiff l) /\ d <= y - x.
Proof.
  induction 1 as [|z l Hz Hl IH]; simpl; [tauto|]. intros Hx Hy Hxy.
  destruct l as [|w l].
  { destruct Hx as [<-|[]], Hy as [<-|[]]. qlra. }
  destruct Hx as [<-|Hx].
  - destruct Hy as [<-|Hy]; [qlra|]. exists (w - z). split; [left; reflexivity|].
    destruct Hy as [<-|Hy]; [qlra'|]. inversion Hl; subst. specialize (H1 _ Hy). qlra'.
  - destruct Hy as [<-|Hy].
    + exfalso. specialize (Hz _ Hx). qlra.
    + destruct (IH Hx Hy Hxy) as (d & Hd & L). exists d. split; auto. right; auto.
Qed.
(** The default radius is the smallest distance between different x coordinates ... *)
Theorem C27_default_radius_partial : forall data r, get_radius None data = Ok r ->
  (exists b c, In b data /\ In c data /\ bX b < bX c /\ r = bX c - bX b) /\
  (forall b c, In b data -> In c data -> bX b < bX c -> r <= bX c - bX b).
Proof.
  intros data r. unfold get_radius. destruct (list_min _) as [m|] eqn:E; [|discriminate]. intros [= <-].
  apply list_min_spec in E as [H1 H2]. split.
  - destruct (qdiff_in _ _ (unique_inc _) H1) as (x & y & Hx & Hy & Hxy & ->).
    apply (proj1 (unique_in _ _)) in Hx, Hy. apply in_map_iff in Hx as (b & <- & Hb), Hy as (c & <- & Hc). eauto 7.
  - intros b c Hb Hc Hbc.
    assert (In (bX b) (unique (map bX data))) as Ib by (apply unique_in, in_map; auto).
    assert (In (bX c) (unique (map bX data))) as Ic by (apply unique_in, in_map; auto).
    destruct (qdiff_le _ _ _ (unique_inc _) Ib Ic Hbc) as (d & Hd & L). specialize (H2 d Hd). qlra'.
Qed.
Print Assumptions C27_default_radius_partial.

(** ... but not the documented "minimum distance found between cells in the
    system": cells closer than this along y are not considered. *)
Theorem C27_default_radius_refuted : exists data b c, In b data /\ In c data /\ b <> c /\
  get_radius None data = Ok (ZQ 4) /\ dist2 b c 0 < ZQ 4 * ZQ 4.
Proof.
  exists [mb 0 0 1; mb 4 0 2; mb 0 1 3; mb 4 1 4], (mb 0 0 1), (mb 0 1 3).
  split; [simpl; auto|]. split; [simpl; auto|]. split.
  - intro E. apply (f_equal bM) in E. apply (f_equal (fun x => qeq x (ZQ 3))) in E. vm_compute in E. discriminate.
  - split.
    + unfold get_radius. replace (unique (map bX _)) with [ZQ 0; ZQ 4] by reflexivity.
      cbn [qdiff list_min of_option fold_left]. f_equal.
    + apply qlt_true. vm_compute. reflexivity.
Qed.
Print Assumptions C27_default_radius_refuted.

(** Systems with a single column have no default radius. *)
Theorem C27_single_column : forall data x, (forall b, In b data -> bX b = x) -> get_radius None data = Err ValueErr.
Proof.
  intros data x H. unfold get_radius.
  assert (unique (map bX data) = [] \/ unique (map bX data) = [x]) as [-> | ->]; try reflexivity.
  { pose proof (unique_inc (map bX data)) as I.
    assert (forall y, In y (unique (map bX data)) -> y = x) as Hy.
    { intros y Hy. apply unique_in, in_map_iff in Hy as (b & <- & Hb). auto. }
    destruct (unique (map bX data)) as [|u [|v l]]; auto.
    - right. f_equal. apply Hy; left; auto.
    - inversion I; subst. specialize (H2 v (or_introl eq_refl)).
      rewrite (Hy u), (Hy v) in H2 by (simpl; auto). qlra. }
Qed.
Print Assumptions C27_single_column.

(** ** C28: neighbour counts *)
(** In the search space built for a layer, a cell is accepted exactly if it is
    a droplet cell of the periodic system: all its periodic images count. *)
Theorem C28_periodic_neighbours : forall V cutoff r, (forall b d, V (shift_x d b) = V b) -> forall box,
  0 <= r -> r <= box -> forall data nb i b k,
  (forall c, In c data -> 0 <= bX c /\ bX c < box) -> nth_error data i = Some b ->
  find_record b (yslice_data data box (bY b) r) = Ok k ->
  (cell_is_droplet V k (yslice_data data box (bY b) r) r cutoff nb = true <-> periodic_droplet_cell V data box cutoff r nb i).
Proof.
  intros V cutoff r Vx box Hr Hb data nb i b k HX Hi Hk.
  rewrite (periodic_droplet_good V cutoff r Vx box Hr Hb data nb i b HX Hi). unfold pgood.
  assert (In b (yslice_data data box (bY b) r)) as Iy.
  { unfold yslice_data. apply in_or_app. left. apply filter_In. split; [eapply nth_error_In; eauto|]. unfold in_yslice.
    rewrite andb_true_iff, !qle_true. split; qlra'. }
  destruct (find_record_spec b _ Iy) as (k' & Hk' & Hn). assert (k' = k) as -> by congruence.
  rewrite (cell_is_droplet_good V cutoff r k _ b nb Hn). tauto.
Qed.
Print Assumptions C28_periodic_neighbours.

(** The cell itself is always found in the search space. *)
Theorem C28_cell_in_search_space : forall data box r b, 0 <= r -> In b data ->
  exists k, find_record b (yslice_data data box (bY b) r) = Ok k.
Proof.
  intros data box r b Hr Hb.
  destruct (find_record_spec b (yslice_data data box (bY b) r)) as (k & Hk & _); eauto.
  unfold yslice_data. apply in_or_app. left. apply filter_In. split; auto. unfold in_yslice.
  rewrite andb_true_iff, !qle_true. split; qlra'.
Qed.
Print Assumptions C28_cell_in_search_space.

(** Without periodic boundaries: searching among the cells above the cutoff
    only is the same as searching in the whole map. *)
Theorem C28_prefilter : forall V cutoff r data nb i b k, nth_error data i = Some b ->
  nth_error (filter (fun c => qle cutoff (V c)) data) k = Some b ->
  (cell_is_droplet V k (filter (fun c => qle cutoff (V c)) data) r cutoff nb = true <-> droplet_cell V data cutoff r nb i).
Proof.
  intros V cutoff r data nb i b k Hi Hk. rewrite (droplet_cell_good V cutoff r data nb i b Hi).
  rewrite (cell_is_droplet_good V cutoff r k _ b nb Hk). unfold good. rewrite incl_filter. tauto.
Qed.
Print Assumptions C28_prefilter.
Example C28_ex : cell_is_droplet bM 0 (yslice_data [mb 0 0 5; mb 1 0 0; mb 2 0 5] (q 3 1) 0 1) 1 (q 4 1) 1 = true
  /\ cell_is_droplet bM 0 [mb 0 0 5; mb 1 0 0; mb 2 0 5] 1 (q 4 1) 1 = false.
Proof. split; vm_compute; reflexivity. Qed.

(** Finding: the copies assume a box which begins at x = 0.  In a box
    [-1, 2) the leftmost and rightmost cells are neighbours, but are not found. *)
Theorem C28_box_not_at_zero_refuted : exists data, (forall c, In c data -> - (1) <= bX c /\ bX c < q 2 1) /\
  periodic_droplet_cell bM data (q 3 1) (q 4 1) 1 1 0 /\
  cell_is_droplet bM 0 (yslice_data data (q 3 1) 0 1) 1 (q 4 1) 1 = false.
Proof.
  exists [mb (-1) 0 5; mb 0 0 0; mb 1 0 5]. split; [|split].
  - intros c Hc. simpl in Hc. destruct Hc as [<-|[<-|[<-|[]]]]; split; apply qle_true || apply qlt_true; vm_compute; reflexivity.
  - exists (mb (-1) 0 5), [(2%nat, (-1)%Z)]. split; [reflexivity|]. split; [apply qle_true; vm_compute; reflexivity|].
    split; [repeat constructor; simpl; tauto|]. split.
    + assert (forall c k, dist2 (mb (-1) 0 5) (mb c 0 5) (ZQ k * q 3 1) = ZQ ((c + k * 3 + 1) * (c + k * 3 + 1))) as HD.
      { intros c k. unfold dist2, mb; simpl. change (q 3 1) with (ZQ 3).
        rewrite <- ZQ_mul, <- ZQ_add, <- !ZQ_sub, <- !ZQ_mul, <- ZQ_add. f_equal. lia. }
      intros j k. simpl. split.
      * intros [[= <- <-]|[]]. split; [intros [= ?]; discriminate|]. exists (mb 1 0 5). split; [reflexivity|].
        split; apply qle_true; vm_compute; reflexivity.
      * intros (N & c & Hc & HV & HD'). destruct j as [|[|[|j]]]; simpl in Hc.
        -- inversion Hc; subst c. rewrite HD in HD'. change (1 * 1) with (ZQ 1) in HD'. apply (proj1 (ZQ_le _ _)) in HD'.
           replace (-1 + k * 3 + 1)%Z with (3 * k)%Z in HD' by lia. assert (-1 < k)%Z by (destruct (Z_lt_le_dec (-1) k); [assumption|nia]). assert (k < 1)%Z by (destruct (Z_lt_le_dec k 1); [assumption|nia]). assert (k = 0)%Z by lia. subst k. exfalso; apply N; reflexivity.
        -- inversion Hc; subst c. apply qle_true in HV. vm_compute in HV. discriminate.
        -- inversion Hc; subst c. rewrite HD in HD'. change (1 * 1) with (ZQ 1) in HD'. apply (proj1 (ZQ_le _ _)) in HD'.
           replace (1 + k * 3 + 1)%Z with (3 * k + 2)%Z in HD' by lia. assert (-2 < k)%Z by (destruct (Z_lt_le_dec (-2) k); [assumption|nia]). assert (k < 0)%Z by (destruct (Z_lt_le_dec k 0); [assumption|nia]). assert (k = -1)%Z by lia. subst k. auto.
        -- destruct j; discriminate.
    + simpl. lia.
  - vm_compute. reflexivity.
Qed.
Print Assumptions C28_box_not_at_zero_refuted.
