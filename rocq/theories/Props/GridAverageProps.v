(** Properties C20-C22: averaging flow maps of different extents (droplets.average). *)
From Coq Require Import String Permutation.
From Verif.Base Require Import QcX Res Np Sums.
From Verif.Model Require Import Flow GridAverage.
From Verif.Spec Require Import GridSpec.
From Verif.Proofs Require Import GridAverageP.
Local Open Scope list_scope.

(** The maps lie on one lattice of spacing dx, dy, and the weights are names of fields. *)
Definition averageable (ls : list string) (gx gy dx dy : Qc) (maps : list flow) (weights : list (string * string)) : Prop :=
  In "X"%string ls /\ In "Y"%string ls /\ 0 < dx /\ 0 < dy /\ Forall (lattice_map ls gx gy dx dy) maps /\ names_ok ls weights.

(** ** C20 *)
Theorem C20_grid_covers_all_maps : forall ls gx gy dx dy maps weights ex,
  averageable ls gx gy dx dy maps weights -> maps <> [] ->
  exists out x0 y0 nx ny, average_flow_data maps weights ex = Ok out /\ labels (data out) = ls /\
    info out = mkFinfo (Some (Z.of_nat nx, Z.of_nat ny)) (Some (x0, y0)) (Some (dx, dy)) (Some (Z.of_nat (nx * ny))) /\
    regular ls x0 y0 dx dy nx ny (rows (data out)) /\
    (* every input record has its place *)
    (forall m r, In m maps -> In r (rows (data m)) ->
       exists i j, (i < nx)%nat /\ (j < ny)%nat /\ fld ls "X" r = x0 + NQ i * dx /\ fld ls "Y" r = y0 + NQ j * dy) /\
    (* and the grid is no larger than needed *)
    (exists m r, In m maps /\ In r (rows (data m)) /\ fld ls "X" r = x0) /\
    (exists m r, In m maps /\ In r (rows (data m)) /\ fld ls "Y" r = y0) /\
    (exists m r, In m maps /\ In r (rows (data m)) /\ fld ls "X" r = x0 + NQ (nx - 1) * dx) /\
    (exists m r, In m maps /\ In r (rows (data m)) /\ fld ls "Y" r = y0 + NQ (ny - 1) * dy).
Proof.
  intros ls gx gy dx dy maps weights ex (HX & HY & Hdx & Hdy & HM & HW) Hne.
  destruct (result_grid ls gx gy dx dy HX HY Hdx Hdy maps weights ex Hne HM HW) as (o & x0 & y0 & nx & ny & E & L & I & Nx & Ny & R & C & X0 & Y0 & X1 & Y1 & _).
  exists o, x0, y0, nx, ny. auto 12.
Qed.
Print Assumptions C20_grid_covers_all_maps.

(** ** C21 *)
Theorem C21_mean_per_bin : forall ls gx gy dx dy maps weights ex out r l,
  averageable ls gx gy dx dy maps weights -> average_flow_data maps weights ex = Ok out ->
  In r (rows (data out)) -> In l ls -> l <> "X"%string -> l <> "Y"%string -> ~ In l (map fst weights) ->
  fld ls l r = qmean (map (fun m => value_at ls (rows (data m)) l (fld ls "X" r) (fld ls "Y" r)) maps).
Proof. intros ls gx gy dx dy maps weights ex out r l (HX & HY & Hdx & Hdy & HM & HW) HO. exact (out_mean ls gx gy dx dy HX HY Hdx Hdy maps weights ex HM HW out HO r l). Qed.
Print Assumptions C21_mean_per_bin.
Theorem C21_weighted_mean_per_bin : forall ls gx gy dx dy maps weights ex out r l w,
  averageable ls gx gy dx dy maps weights -> average_flow_data maps weights ex = Ok out ->
  In r (rows (data out)) -> In (l, w) weights ->
  (forall m r', In m maps -> In r' (rows (data m)) -> 0 <= fld ls w r') ->
  weighted_mean (map (fun m => value_at ls (rows (data m)) l (fld ls "X" r) (fld ls "Y" r)) maps)
                (map (fun m => value_at ls (rows (data m)) w (fld ls "X" r) (fld ls "Y" r)) maps) (fld ls l r).
Proof. intros ls gx gy dx dy maps weights ex out r l w (HX & HY & Hdx & Hdy & HM & HW) HO. exact (out_weighted ls gx gy dx dy HX HY Hdx Hdy maps weights ex HM HW out HO r l w). Qed.
Print Assumptions C21_weighted_mean_per_bin.
(* e.g. total mass *)
Theorem C21_totals_are_conserved : forall ls gx gy dx dy maps weights ex out l,
  averageable ls gx gy dx dy maps weights -> average_flow_data maps weights ex = Ok out ->
  In l ls -> l <> "X"%string -> l <> "Y"%string -> ~ In l (map fst weights) ->
  qsum (map (fld ls l) (rows (data out))) = qmean (map (fun m => qsum (map (fld ls l) (rows (data m)))) maps).
Proof. intros ls gx gy dx dy maps weights ex out l (HX & HY & Hdx & Hdy & HM & HW) HO. exact (out_total ls gx gy dx dy HX HY Hdx Hdy maps weights ex HM HW out HO l). Qed.
Print Assumptions C21_totals_are_conserved.
(* e.g. total momentum *)
Theorem C21_weighted_totals_are_conserved : forall ls gx gy dx dy maps weights ex out l w,
  averageable ls gx gy dx dy maps weights -> average_flow_data maps weights ex = Ok out -> In (l, w) weights ->
  (forall m r, In m maps -> In r (rows (data m)) -> 0 <= fld ls w r) ->
  qsum (map (fun r => fld ls l r * fld ls w r) (rows (data out))) =
  qmean (map (fun m => qsum (map (fun r => fld ls l r * fld ls w r) (rows (data m)))) maps).
Proof. intros ls gx gy dx dy maps weights ex out l w (HX & HY & Hdx & Hdy & HM & HW) HO. exact (out_weighted_total ls gx gy dx dy HX HY Hdx Hdy maps weights ex HM HW out HO l w). Qed.
Print Assumptions C21_weighted_totals_are_conserved.
Theorem C21_order_does_not_matter : forall ls gx gy dx dy maps maps' weights ex,
  averageable ls gx gy dx dy maps weights -> NoDup ls -> Permutation maps maps' ->
  average_flow_data maps weights ex = average_flow_data maps' weights ex.
Proof. intros ls gx gy dx dy maps maps' weights ex (HX & HY & Hdx & Hdy & HM & HW) ND. exact (average_order ls gx gy dx dy maps maps' weights ex HX HY Hdx Hdy ND HM HW). Qed.
Print Assumptions C21_order_does_not_matter.

(** Two maps of different extent: two bins at x = 1, 2 and one bin at x = 2 in the row above. *)
Definition zq (l : list Z) : list Qc := map ZQ l.
Definition ex_ls : list string := ["X"; "Y"; "M"; "U"]%string.
Definition ex_a : flow := mkFlow (mkTable ex_ls (map zq [[1; 0; 2; 3]; [2; 0; 4; 1]]%Z)) (mkFinfo (Some (2, 1)%Z) None (Some (1, 1)) None).
Definition ex_b : flow := mkFlow (mkTable ex_ls (map zq [[2; 0; 2; 4]; [2; 1; 6; 8]]%Z)) (mkFinfo (Some (1, 2)%Z) None (Some (1, 1)) None).
Definition ex_w : list (string * string) := [("U", "M")]%string.
Example C20_ex_averageable : averageable ex_ls 0 0 1 1 [ex_a; ex_b] ex_w.
Proof.
  split; [simpl; auto|]. split; [simpl; auto|]. split; [apply qlt_true; vm_compute; reflexivity|]. split; [apply qlt_true; vm_compute; reflexivity|]. split.
  - assert (forall r, In r (map zq [[1; 0; 2; 3]; [2; 0; 4; 1]]%Z ++ map zq [[2; 0; 2; 4]; [2; 1; 6; 8]]%Z) -> List.length r = 4%nat) as HL.
    { simpl. intros r [<- | [<- | [<- | [<- | []]]]]; reflexivity. }
    constructor; [|constructor; [|constructor]].
    + split; [reflexivity|]. split; [reflexivity|]. exists 1%Z, 0%Z, 2%nat, 1%nat. split; [lia|]. split; [lia|]. split; [reflexivity|].
      split; [reflexivity|]. split; [intros r H; apply HL, in_or_app; auto|].
      intros i j Hi Hj. assert (j = 0%nat) as -> by lia. destruct i as [|[|i]]; [| |lia]; split; apply qeq_true; vm_compute; reflexivity.
    + split; [reflexivity|]. split; [reflexivity|]. exists 2%Z, 0%Z, 1%nat, 2%nat. split; [lia|]. split; [lia|]. split; [reflexivity|].
      split; [reflexivity|]. split; [intros r H; apply HL, in_or_app; auto|].
      intros i j Hi Hj. assert (i = 0%nat) as -> by lia. destruct j as [|[|j]]; [| |lia]; split; apply qeq_true; vm_compute; reflexivity.
  - split; [repeat constructor; simpl; tauto|]. intros l w [[= <- <-] | []]. simpl. intuition discriminate.
Qed.
Example C21_ex_values : match average_flow_data [ex_a; ex_b] ex_w false with
  | Ok out => forallb (fun p => qleqb (fst p) (snd p)) (combine (rows (data out)) (map zq [[1; 0; 1; 3]; [2; 0; 3; 2]; [1; 1; 0; 0]; [2; 1; 3; 8]]%Z)) = true /\
              List.length (rows (data out)) = 4%nat
  | Err _ => False
  end.
Proof. vm_compute. split; reflexivity. Qed.

(** ** C22 *)
Definition near (a b : Qc) : Prop := qabs (a - b) <= Q2Qc (1 # 100000000) + Q2Qc (1 # 100000) * qabs b.
Theorem C22_no_maps : forall weights ex, average_flow_data [] weights ex = Err ValueErr.
Proof. reflexivity. Qed.
Print Assumptions C22_no_maps.
(** Whatever is returned comes from maps which all have a bin spacing, that of the first map. *)
Theorem C22_spacings_agree : forall m0 maps weights ex out, average_flow_data (m0 :: maps) weights ex = Ok out ->
  exists dx dy, f_spacing (info m0) = Some (dx, dy) /\ f_spacing (info out) = Some (dx, dy) /\
    forall m, In m maps -> exists dx' dy', f_spacing (info m) = Some (dx', dy') /\ near dx' dx /\ near dy' dy.
Proof. exact average_ok_spacing. Qed.
Print Assumptions C22_spacings_agree.
(** A single map without bin spacing, and maps of differing spacing: ValueError. *)
Theorem C22_unset_spacing : forall m weights ex, f_spacing (info m) = None -> average_flow_data [m] weights ex = Err ValueErr.
Proof. intros m weights ex H. unfold average_flow_data, get_spacing. rewrite H. reflexivity. Qed.
Theorem C22_different_spacing : forall m0 m dx dy dx' dy' weights ex,
  f_spacing (info m0) = Some (dx, dy) -> f_spacing (info m) = Some (dx', dy') -> ~ (near dx' dx /\ near dy' dy) ->
  average_flow_data [m0; m] weights ex = Err ValueErr.
Proof. exact average_bad_spacing. Qed.
Print Assumptions C22_different_spacing.
(** Every map which is used has its shape set and as many records as its shape says. *)
Theorem C22_shapes_are_set : forall maps weights ex out m, average_flow_data maps weights ex = Ok out -> In m maps ->
  (ex = true -> rows (data m) <> []) ->
  exists nx ny, f_shape (info m) = Some (nx, ny) /\ List.length (rows (data m)) = (Z.to_nat ny * Z.to_nat nx)%nat.
Proof. exact average_ok_shape. Qed.
Print Assumptions C22_shapes_are_set.
(** With exclude_empty_sets empty maps are ignored (if any other is left, and the spacings are the same). *)
Theorem C22_empty_sets_are_ignored : forall maps weights dx dy,
  (forall m, In m maps -> f_spacing (info m) = Some (dx, dy)) ->
  average_flow_data maps weights true =
  average_flow_data (filter (fun m => negb (Nat.eqb (List.length (rows (data m))) 0)) maps) weights true.
Proof. exact average_excludes. Qed.
Print Assumptions C22_empty_sets_are_ignored.
(** Only empty maps: ValueError. *)
Theorem C22_all_empty : forall maps weights dx dy,
  (forall m, In m maps -> f_spacing (info m) = Some (dx, dy) /\ rows (data m) = []) -> average_flow_data maps weights true = Err ValueErr.
Proof. exact average_all_empty. Qed.
Print Assumptions C22_all_empty.
(** Finding: the documented inclusion of empty sets as empty bins (exclude_empty_sets=False,
    the default) never succeeds: an empty set always raises. *)
Theorem C22_empty_set_included_refuted : forall maps weights m out, In m maps -> rows (data m) = [] ->
  average_flow_data maps weights false <> Ok out.
Proof. exact average_empty_raises. Qed.
Print Assumptions C22_empty_set_included_refuted.
Definition ex_empty : flow := mkFlow (mkTable ex_ls []) (mkFinfo (Some (0, 0)%Z) None (Some (1, 1)) None).
Example C22_ex_default : average_flow_data [ex_a; ex_empty] ex_w false = Err ValueErr.
Proof. vm_compute. reflexivity. Qed.
Example C22_ex_excluded : match average_flow_data [ex_a; ex_empty] ex_w true with Ok out => List.length (rows (data out)) = 2%nat | Err _ => False end.
Proof. vm_compute. reflexivity. Qed.
(** Finding: droplets.average.average_data documents a ValueError for data with
    non-matching coordinates, but never checks: it returns the coordinates of the first. *)
Theorem C22_coordinates_not_checked_refuted : forall kx ky weights first records,
  (forall d, In d records -> List.length d = List.length first) ->
  exists avg, average_records kx ky weights (first :: records) = Ok avg.
Proof. exact average_records_total. Qed.
Print Assumptions C22_coordinates_not_checked_refuted.
