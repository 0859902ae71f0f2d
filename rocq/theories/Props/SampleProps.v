(** Properties C41 to C44: sampled slip lengths, averages, viscous dissipation and centres of mass. *)
From Coq Require Import Permutation String.
From Verif.Base Require Import QcX Res Np ListX Sort Sums.
From Verif.Model Require Import Bins Flow Sample.
From Verif.Spec Require Import FlowSpec FieldSpec.
From Verif.Proofs Require Import FlowP SampleP SpreadingViewP.
Local Open Scope Qc_scope.
Local Open Scope list_scope.

(** ** C43: viscous dissipation *)
Theorem C43_nonnegative : forall data fi mu w s l, 0 <= mu -> (forall b, In b data -> w b <> 0) ->
  sample_viscous_dissipation data fi mu w = (s, Ok l) -> length l = length data /\ forall d, In d l -> 0 <= d.
Proof.
  intros data fi mu w s l Hmu Hw H. unfold sample_viscous_dissipation in H.
  destruct (f_shape fi) as [[nx ny]|]; [|discriminate]. destruct (f_spacing fi) as [[dx dy]|]; [|discriminate]. cbv zeta in H. injection H as <- H.
  destruct (Nat.eqb_spec (List.length (sort_bins data)) (Z.to_nat ny * Z.to_nat nx)) as [E|E]; [|discriminate]. cbn [negb] in H.
  destruct (Nat.ltb _ 3 || Nat.ltb _ 3)%bool; [discriminate|]. injection H as <-. split; [rewrite grid_length, <- E; apply isort_length|].
  intros d Hd. apply in_grid in Hd as (j & i & Hj & Hi & ->). rewrite dissipation_viscous.
  set (b := nth _ _ _). assert (In b data) as Hb. { eapply isort_in. unfold b. apply nth_In. unfold sort_bins in *. rewrite E. nia. }
  specialize (Hw b Hb). set (vv := viscous _ _ _ _ _). assert (0 <= vv) by (apply viscous_nonneg, Hmu). clearbody vv.
  assert (0 < w b * w b) as HP. { destruct (Qc_dec (w b) 0) as [[L|G]|E0]; [| |contradiction]; revert L || revert G; generalize (w b); intros; [assert (0 < - q * - q) by (apply qmult_pos; qlra'); replace (q * q) with (- q * - q) by ring; assumption|apply qmult_pos; assumption]. }
  unfold Qcdiv. apply qmult_nonneg; [assumption|]. apply Qclt_le_weak, qinv_pos, HP.
Qed.
Print Assumptions C43_nonnegative.
(** Exact for all flows which are polynomials of degree two: result number k is the dissipation at the place of
    record number k of the object after the call, which holds the same records in another order.
    A constant weight has no influence. *)
Theorem C43_exact : forall data x0 y0 dx dy nx ny fi mu w u v,
  bins_on_grid data x0 y0 dx dy nx ny -> (3 <= nx)%nat -> (3 <= ny)%nat -> w <> 0 -> flow_is data u v ->
  f_shape fi = Some (Z.of_nat nx, Z.of_nat ny) -> f_spacing fi = Some (dx, dy) ->
  exists s, Permutation data s /\ sample_viscous_dissipation data fi mu (fun _ => w) =
    (s, Ok (map (fun b => viscous mu (d_dx u (bX b) (bY b)) (d_dy u (bX b) (bY b)) (d_dx v (bX b) (bY b)) (d_dy v (bX b) (bY b))) s)).
Proof.
  intros data x0 y0 dx dy nx ny [sh o sp n] mu w u v HG Hnx Hny Hw HF HS HD. cbn in HS, HD. subst. exists (sort_bins data). split; [apply isort_perm|].
  eapply dissipation_on_grid; eauto.
Qed.
Print Assumptions C43_exact.
(** Special flows, with the records of the bins: (u, v) = c + A (x, y). *)
Definition linear_flow (data : list bin) (c0 a b c1 c d : Qc) : Prop :=
  forall n, In n data -> bU n = c0 + a * bX n + b * bY n /\ bV n = c1 + c * bX n + d * bY n.
Theorem C43_linear : forall data x0 y0 dx dy nx ny fi mu w c0 a b c1 c d,
  bins_on_grid data x0 y0 dx dy nx ny -> (3 <= nx)%nat -> (3 <= ny)%nat -> w <> 0 -> linear_flow data c0 a b c1 c d ->
  f_shape fi = Some (Z.of_nat nx, Z.of_nat ny) -> f_spacing fi = Some (dx, dy) ->
  snd (sample_viscous_dissipation data fi mu (fun _ => w)) = Ok (repeat (viscous mu a b c d) (nx * ny)).
Proof.
  intros data x0 y0 dx dy nx ny fi mu w c0 a b c1 c d HG Hnx Hny Hw HF HS HD.
  destruct (C43_exact data x0 y0 dx dy nx ny fi mu w (mkQuad c0 a b 0 0 0) (mkQuad c1 c d 0 0 0) HG Hnx Hny Hw) as (s & HP & ->); try assumption.
  { intros n Hn. destruct (HF n Hn) as [-> ->]. unfold value. cbn [q1 qx qy qxx qxy qyy]. split; ring. }
  cbn [snd]. f_equal. replace (nx * ny)%nat with (length s). 2:{ rewrite <- (Permutation_length HP). destruct HG as (_ & _ & -> & _). lia. }
  clear. induction s as [|n s IH]; [reflexivity|]. cbn [map repeat length]. f_equal; [|exact IH]. unfold d_dx, d_dy. cbn [q1 qx qy qxx qxy qyy]. f_equal; ring.
Qed.
Print Assumptions C43_linear.
(** Uniform flow and rigid rotation: 0; shear: mu rate^2; plane extension: 4 mu rate^2. *)
Corollary C43_special : forall data x0 y0 dx dy nx ny fi mu c0 c1 k,
  bins_on_grid data x0 y0 dx dy nx ny -> (3 <= nx)%nat -> (3 <= ny)%nat ->
  f_shape fi = Some (Z.of_nat nx, Z.of_nat ny) -> f_spacing fi = Some (dx, dy) ->
  (linear_flow data c0 0 0 c1 0 0 -> snd (sample_viscous_dissipation data fi mu (fun _ => 1)) = Ok (repeat 0 (nx * ny))) /\
  (linear_flow data c0 0 (- k) c1 k 0 -> snd (sample_viscous_dissipation data fi mu (fun _ => 1)) = Ok (repeat 0 (nx * ny))) /\
  (linear_flow data c0 0 k c1 0 0 -> snd (sample_viscous_dissipation data fi mu (fun _ => 1)) = Ok (repeat (mu * k * k) (nx * ny))) /\
  (linear_flow data c0 k 0 c1 0 (- k) -> snd (sample_viscous_dissipation data fi mu (fun _ => 1)) = Ok (repeat ((1 + 1 + 1 + 1) * mu * k * k) (nx * ny))).
Proof.
  intros data x0 y0 dx dy nx ny fi mu c0 c1 k HG Hnx Hny HS HD.
  assert (1 <> 0 :> Qc) as H1 by discriminate. assert (1 + 1 + 1 <> 0 :> Qc) as H3 by discriminate.
  split; [|split; [|split]]; intros HF; erewrite C43_linear by eauto; f_equal; f_equal; unfold viscous; field; exact H3.
Qed.
Print Assumptions C43_special.
(** The result depends on the bins, not on their order. *)
Theorem C43_any_order : forall data data' fi mu w, Permutation data data' -> f_shape fi <> None -> f_spacing fi <> None ->
  sample_viscous_dissipation data fi mu w = sample_viscous_dissipation data' fi mu w.
Proof.
  intros data data' fi mu w HP HS HD. unfold sample_viscous_dissipation. destruct (f_shape fi) as [[nx ny]|]; [|congruence]. destruct (f_spacing fi) as [[dx dy]|]; [|congruence].
  assert (sort_bins data = sort_bins data') as -> by (apply (isort_canonical pos_le pos_le_total pos_le_trans pos_le_antisym _ _ HP)). reflexivity.
Qed.
(** Refused: grid information which is not set, other numbers of bins than in the shape, fewer than three along an axis. *)
Theorem C43_errors : forall data fi mu w,
  (forall l, snd (sample_viscous_dissipation data fi mu w) = Ok l ->
     exists nx ny, f_shape fi = Some (nx, ny) /\ f_spacing fi <> None /\ (3 <= nx)%Z /\ (3 <= ny)%Z /\ Z.of_nat (length data) = (nx * ny)%Z) /\
  (forall e, snd (sample_viscous_dissipation data fi mu w) = Err e -> e = ValueErr).
Proof.
  intros data fi mu w. unfold sample_viscous_dissipation. destruct (f_shape fi) as [[nx ny]|]; [|split; [discriminate|intros e [= <-]; reflexivity]].
  destruct (f_spacing fi) as [[dx dy]|]; [|split; [discriminate|intros e [= <-]; reflexivity]]. cbv zeta. cbn [snd].
  destruct (Nat.eqb_spec (List.length (sort_bins data)) (Z.to_nat ny * Z.to_nat nx)) as [E|E]; cbn [negb]; [|split; [discriminate|intros e [= <-]; reflexivity]].
  destruct (Nat.ltb_spec (Z.to_nat nx) 3); cbn [orb]; [split; [discriminate|intros e [= <-]; reflexivity]|].
  destruct (Nat.ltb_spec (Z.to_nat ny) 3); cbn [orb]; [split; [discriminate|intros e [= <-]; reflexivity]|].
  split; [|discriminate]. intros l _. exists nx, ny. split; [reflexivity|]. split; [congruence|]. unfold sort_bins in E. rewrite isort_length in E. rewrite E. lia.
Qed.
Print Assumptions C43_errors.

(** ** C41: slip length *)
(** Record number j of column number i. *)
Definition in_column (data : list bin) (ny i j : nat) : bin := nth (i * ny + j) data bin0.
(** The velocities of column i are linear in the height and vanish at height z. *)
Definition linear_profile (data : list bin) (ny i : nat) (z : Qc) : Prop :=
  (exists s, s <> 0 /\ forall j, (j < ny)%nat -> bU (in_column data ny i j) = s * (bY (in_column data ny i j) - z)) /\
  exists j k, (j < ny)%nat /\ (k < ny)%nat /\ bY (in_column data ny i j) <> bY (in_column data ny i k).
Theorem C41_linear : forall data fi floor nx ny zs,
  f_shape fi = Some (Z.of_nat nx, Z.of_nat ny) -> length data = (nx * ny)%nat -> length zs = nx -> nx <> 0%nat ->
  (forall i z, nth_error zs i = Some z -> linear_profile data ny i z) ->
  sample_slip_length data fi floor = Ok (Number (Fin (qmean (map (fun z => floor - z) zs))) (Some (Fin (variance (map (fun z => floor - z) zs))))).
Proof.
  intros data fi floor nx ny zs HS HL HZ Hnx HP. unfold sample_slip_length. rewrite HS, !Nat2Z.id, HL, Nat.eqb_refl. cbn [negb].
  assert (rmapM (fun c => do b <- intercept (map bU c) (map bY c); Ok (- (b - floor))) (columns data nx ny) = Ok (map (fun z => floor - z) zs)) as ->.
  { unfold columns. subst nx. clear HS HL Hnx.
    assert (forall a n, n = length zs -> (forall i z, nth_error zs i = Some z -> linear_profile data ny (a + i) z) ->
      rmapM (fun c => do b <- intercept (map bU c) (map bY c); Ok (- (b - floor))) (map (fun i => map (fun j => nth (i * ny + j) data bin0) (seq 0 ny)) (seq a n)) = Ok (map (fun z => floor - z) zs)) as G.
    { clear HP. induction zs as [|z zs IH]; intros a n -> HP; [reflexivity|]. cbn [length seq map rmapM].
      destruct (HP 0%nat z eq_refl) as [(s & Hs & HU) (j & k & Hj & Hk & HN)]. rewrite Nat.add_0_r in *.
      rewrite (intercept_linear _ _ s z Hs).
      - cbn [rbind]. rewrite (IH (S a) (length zs) eq_refl).
        + cbn [rbind]. f_equal. f_equal. ring.
        + intros i z' Hi. replace (S a + i)%nat with (a + S i)%nat by lia. apply HP. exact Hi.
      - intros u y Hin. rewrite !map_map, combine_map_both in Hin. apply in_map_iff in Hin as (m & [= <- <-] & Hm). apply in_seq in Hm. apply HU. lia.
      - rewrite !map_length. reflexivity.
      - exists (bU (in_column data ny a j)), (bU (in_column data ny a k)). rewrite !map_map.
        split; [apply in_map_iff; exists j; split; [reflexivity|apply in_seq; lia]|]. split; [apply in_map_iff; exists k; split; [reflexivity|apply in_seq; lia]|].
        rewrite !HU by assumption. intros E. apply HN.
        assert (s * (bY (in_column data ny a j) - bY (in_column data ny a k)) = 0) as E' by (replace (s * (bY (in_column data ny a j) - bY (in_column data ny a k))) with (s * (bY (in_column data ny a j) - z) - s * (bY (in_column data ny a k) - z)) by ring; rewrite E; ring).
        apply Qcmult_integral in E' as [E'|E']; [contradiction|]. revert E'. generalize (bY (in_column data ny a j)) (bY (in_column data ny a k)). intros. qlra'. }
    apply G; [reflexivity|exact HP]. }
  cbn [rbind]. destruct zs; [exfalso; apply Hnx; symmetry; exact HZ|]. reflexivity.
Qed.
Print Assumptions C41_linear.
(** The same profile in all columns: exactly the distance below the floor, with no deviation. *)
Corollary C41_same : forall data fi floor nx ny z, f_shape fi = Some (Z.of_nat nx, Z.of_nat ny) -> length data = (nx * ny)%nat -> nx <> 0%nat ->
  (forall i, (i < nx)%nat -> linear_profile data ny i z) -> sample_slip_length data fi floor = Ok (Number (Fin (floor - z)) (Some (Fin 0))).
Proof.
  intros data fi floor nx ny z HS HL Hnx HP. rewrite (C41_linear data fi floor nx ny (repeat z nx)); try assumption; [|apply repeat_length|].
  - assert (map (fun z => floor - z) (repeat z nx) <> []) as Hne by (destruct nx; [congruence|discriminate]).
    assert (forall x, In x (map (fun z => floor - z) (repeat z nx)) -> x = floor - z) as HC by (intros x Hx; apply in_map_iff in Hx as (y & <- & Hy); apply repeat_spec in Hy; subst; reflexivity).
    assert (qmean (map (fun z => floor - z) (repeat z nx)) = floor - z) as E by (apply qmean_const; assumption).
    rewrite E. unfold variance. rewrite E. do 3 f_equal. f_equal. apply qmean_const; [destruct nx; [congruence|discriminate]|]. intros x Hx. apply in_map_iff in Hx as (y & <- & Hy). rewrite (HC y Hy). ring.
  - intros i z' Hi. pose proof (nth_error_In _ _ Hi) as Hin. apply repeat_spec in Hin. subst z'. apply HP. rewrite <- (repeat_length z nx). apply nth_error_Some. congruence.
Qed.
Print Assumptions C41_same.
(** Scaling of the velocity has no influence, for any data; moving the heights and the floor neither. *)
Definition scale_u (c : Qc) (b : bin) : bin := mkBin (bX b) (bY b) (bN b) (bT b) (bM b) (c * bU b) (bV b).
Definition lift (d : Qc) (b : bin) : bin := mkBin (bX b) (bY b + d) (bN b) (bT b) (bM b) (bU b) (bV b).
Lemma columns_map f data nx ny : length data = (nx * ny)%nat -> columns (map f data) nx ny = map (map f) (columns data nx ny).
Proof.
  intros HL. unfold columns. rewrite map_map. apply map_ext_in. intros i Hi. apply in_seq in Hi. rewrite map_map. apply map_ext_in. intros j Hj. apply in_seq in Hj.
  rewrite (nth_indep _ bin0 (f bin0)) by (rewrite map_length; nia). apply map_nth.
Qed.
Lemma rmapM_ext_in {A B} (f g : A -> res B) l : (forall a, In a l -> f a = g a) -> rmapM f l = rmapM g l.
Proof. induction l as [|a l IH]; intros H; [reflexivity|]. cbn [rmapM]. rewrite (H a (or_introl eq_refl)), IH; [reflexivity|]. intros; apply H; right; assumption. Qed.
Lemma rmapM_map {A B C} (h : A -> B) (f : B -> res C) l : rmapM f (map h l) = rmapM (fun a => f (h a)) l.
Proof. induction l as [|a l IH]; [reflexivity|]. cbn [map rmapM]. rewrite IH. reflexivity. Qed.
Theorem C41_scaled_velocity : forall data fi floor c, c <> 0 -> sample_slip_length (map (scale_u c) data) fi floor = sample_slip_length data fi floor.
Proof.
  intros data fi floor c Hc. unfold sample_slip_length. destruct (f_shape fi) as [[nx ny]|]; [|reflexivity]. rewrite map_length.
  destruct (Nat.eqb_spec (List.length data) (Z.to_nat nx * Z.to_nat ny)) as [E|E]; [|reflexivity]. cbn [negb]. rewrite columns_map by exact E. rewrite rmapM_map. f_equal.
  apply rmapM_ext_in. intros col _. rewrite !map_map. rewrite <- (map_map bU (fun u => c * u)). cbn [bY scale_u]. rewrite intercept_scale; [reflexivity|exact Hc|rewrite !map_length; reflexivity].
Qed.
Print Assumptions C41_scaled_velocity.
Theorem C41_moved_heights : forall data fi floor d, sample_slip_length (map (lift d) data) fi (floor + d) = sample_slip_length data fi floor.
Proof.
  intros data fi floor d. unfold sample_slip_length. destruct (f_shape fi) as [[nx ny]|]; [|reflexivity]. rewrite map_length.
  destruct (Nat.eqb_spec (List.length data) (Z.to_nat nx * Z.to_nat ny)) as [E|E]; [|reflexivity]. cbn [negb]. rewrite columns_map by exact E. rewrite rmapM_map. f_equal.
  apply rmapM_ext_in. intros col _. rewrite !map_map. cbn [bU lift]. change (map (fun x => bY (lift d x)) col) with (map (fun x => bY x + d) col). rewrite <- (map_map bY (fun y => y + d)).
  destruct (list_eq_dec Qc_eq_dec (map bU col) []) as [E0|Hne].
  - destruct col as [|b col]; [|discriminate]. reflexivity.
  - rewrite intercept_shift; [|exact Hne|rewrite !map_length; reflexivity]. unfold rmap. destruct (intercept (map bU col) (map bY col)) as [v|e]; [|reflexivity]. cbn [rbind]. f_equal. ring.
Qed.
Print Assumptions C41_moved_heights.
(** No result (TypeError, ValueError) without a shape, for another number of bins, or a column of equal velocities. *)
Theorem C41_errors : forall data fi floor v, sample_slip_length data fi floor = Ok v ->
  exists nx ny, f_shape fi = Some (nx, ny) /\ length data = (Z.to_nat nx * Z.to_nat ny)%nat /\
    forall i, (i < Z.to_nat nx)%nat -> ~ exists u, forall j, (j < Z.to_nat ny)%nat -> bU (in_column data (Z.to_nat ny) i j) = u.
Proof.
  intros data fi floor v H. unfold sample_slip_length in H. destruct (f_shape fi) as [[nx ny]|]; [|discriminate]. exists nx, ny. split; [reflexivity|].
  destruct (Nat.eqb_spec (List.length data) (Z.to_nat nx * Z.to_nat ny)) as [E|E]; [|discriminate]. split; [exact E|]. cbn [negb] in H.
  destruct (rmapM _ _) as [sl|] eqn:ES; [|discriminate]. intros i Hi (u & Hu). apply rmapM_Forall2 in ES.
  assert (nth_error (columns data (Z.to_nat nx) (Z.to_nat ny)) i = Some (map (fun j => nth (i * Z.to_nat ny + j) data bin0) (seq 0 (Z.to_nat ny)))) as EC.
  { unfold columns. rewrite nth_error_map_seq by exact Hi. reflexivity. }
  apply Forall2_nth in ES as [EL ES]. destruct (nth_error sl i) as [w|] eqn:EW; [|apply nth_error_None in EW; rewrite <- EL in EW; unfold columns in EW; rewrite map_length, seq_length in EW; lia].
  pose proof (ES i _ w EC EW) as HW. 
  assert (forall x, In x (map bU (map (fun j => nth (i * Z.to_nat ny + j) data bin0) (seq 0 (Z.to_nat ny)))) -> x = u) as HC.
  { intros x Hx. rewrite map_map in Hx. apply in_map_iff in Hx as (j & <- & Hj). apply in_seq in Hj. apply Hu. lia. }
  set (us := map bU _) in HW, HC. clearbody us. unfold intercept in HW. destruct (list_eq_dec Qc_eq_dec us []) as [E0|Hne]; [rewrite E0 in HW; discriminate|].
  rewrite (qmean_const us u Hne HC) in HW. assert (qsum (map (fun x => (x - u) * (x - u)) us) = 0) as E0.
  { clear - HC. induction us as [|a us IH]; [reflexivity|]. cbn [map]. rewrite qsum_cons, IH by (intros; apply HC; right; assumption). rewrite (HC a (or_introl eq_refl)). ring. }
  rewrite E0, qeq_refl in HW. discriminate.
Qed.
Print Assumptions C41_errors.

(** ** C42: values in bins *)
(** Which bins are used: all of them, or those where field g is at least the cutoff. *)
Definition uses (cl : clabel) (c : Qc) (b : bin) : Prop := match cl with CNone => True | CField g => c <= g b | CUnknown => False end.
Lemma uses_selection data c cl used : cl <> CUnknown -> selects (uses cl c) data used -> exists sel, selection data (Some c) cl = Ok sel /\ filter sel data = used.
Proof.
  intros Hcl HS. destruct cl as [|g|]; [| |congruence]; eexists; (split; [reflexivity|]); symmetry; eapply selects_eq; try exact HS; intros x _; cbn [uses]; [tauto|apply qle_true].
Qed.
(** A field or the inertial energy of each bin. *)
Definition energy (b : bin) : Qc := bM b * (bU b * bU b + bV b * bV b) / (1 + 1).
Definition quantity (l : label) (f : bin -> Qc) : Prop := match l with LField g => f = g | LInertial => f = energy | _ => False end.
(** The sampled number is the sum or the mean over exactly the bins which are used; no bins: 0 and nan.
    The map is not changed. *)
Theorem C42_values : forall data fi l f c cl sum mu used, quantity l f -> cl <> CUnknown -> selects (uses cl c) data used ->
  sample_value data fi l (Some c) cl sum mu = (data, Ok
    (if sum then Number (Fin (qsum (map f used))) None
     else match used with
          | [] => Number NaN (Some NaN)
          | _ => let m := qsum (map f used) / NQ (length used) in
                 Number (Fin m) (Some (Fin (qsum (map (fun b => (f b - m) * (f b - m)) used) / NQ (length used))))
          end)).
Proof.
  intros data fi l f c cl sum mu used HQ Hcl HS. destruct (uses_selection _ _ _ _ Hcl HS) as (sel & ES & EF).
  assert (sample_value data fi l (Some c) cl sum mu = (data, Ok (if sum then Number (Fin (qsum (map f used))) None else Number (mean_of (map f used)) (Some (var_of (map f used)))))) as ->.
  { unfold sample_value. destruct l; cbn in HQ; try contradiction; subst f; cbn [rbind]; rewrite ES; cbn [rbind]; unfold sample_inertial_energy; rewrite pick_map, EF.
    - destruct sum; reflexivity.
    - rewrite (map_ext (fun b => Q2Qc (1 # 2) * bM b * (bU b * bU b + bV b * bV b)) energy); [destruct sum; reflexivity|].
      intros b. unfold energy. replace (Q2Qc (1 # 2)) with (1 / (1 + 1)) by (apply Qc_is_canon; reflexivity). field. discriminate. }
  destruct sum; [reflexivity|]. assert (forall us : list bin, us <> [] -> Number (mean_of (map f us)) (Some (var_of (map f us))) = let m := qsum (map f us) / NQ (length us) in Number (Fin m) (Some (Fin (qsum (map (fun b => (f b - m) * (f b - m)) us) / NQ (length us))))) as G.
  { clear. intros us Hne. assert (mean_of (map f us) = Fin (qmean (map f us))) as -> by (destruct us; [congruence|reflexivity]). assert (var_of (map f us) = Fin (variance (map f us))) as -> by (destruct us; [congruence|reflexivity]).
    cbv zeta. unfold variance, qmean. rewrite !map_map, !map_length. reflexivity. }
  destruct used as [|b used]; [reflexivity|]. rewrite G by discriminate. reflexivity.
Qed.
Print Assumptions C42_values.
(** The default cutoff is half way between the smallest and the largest value of the field in the map. *)
Theorem C42_default_cutoff : forall data fi l g sum mu lo hi,
  (exists b, In b data /\ g b = lo) -> (exists b, In b data /\ g b = hi) -> (forall b, In b data -> lo <= g b /\ g b <= hi) ->
  l <> LVisc -> sample_value data fi l None (CField g) sum mu = sample_value data fi l (Some ((lo + hi) / (1 + 1))) (CField g) sum mu.
Proof.
  intros data fi l g sum mu lo hi (bl & Hbl & El) (bh & Hbh & Eh) HB Hl. unfold sample_value.
  assert (selection data None (CField g) = selection data (Some ((lo + hi) / (1 + 1))) (CField g)) as HS.
  { unfold selection. assert (list_max (map g data) = Some hi) as ->. { apply list_max_spec. split; [apply in_map_iff; eauto|]. intros y Hy. apply in_map_iff in Hy as (b & <- & Hb). apply HB, Hb. }
    assert (list_min (map g data) = Some lo) as ->. { apply list_min_spec. split; [apply in_map_iff; eauto|]. intros y Hy. apply in_map_iff in Hy as (b & <- & Hb). apply HB, Hb. }
    cbn [rbind]. replace (Q2Qc (1 # 2) * (hi + lo)) with ((lo + hi) / (1 + 1)); [reflexivity|]. replace (Q2Qc (1 # 2)) with (1 / (1 + 1)) by (apply Qc_is_canon; reflexivity). field. discriminate. }
  destruct l; try congruence; cbn [rbind]; rewrite ?HS; reflexivity.
Qed.
Print Assumptions C42_default_cutoff.
(** A mean lies within the range of the values which are used. *)
Theorem C42_mean_in_range : forall data fi l f c cl mu used lo hi, quantity l f -> cl <> CUnknown -> selects (uses cl c) data used -> used <> [] ->
  (forall b, In b used -> lo <= f b /\ f b <= hi) ->
  exists m v, snd (sample_value data fi l (Some c) cl false mu) = Ok (Number (Fin m) (Some (Fin v))) /\ lo <= m /\ m <= hi /\ 0 <= v.
Proof.
  intros data fi l f c cl mu used lo hi HQ Hcl HS Hne HB. rewrite (C42_values data fi l f c cl false mu used HQ Hcl HS). cbn [snd].
  destruct used as [|b used]; [congruence|]. cbv zeta. eexists _, _. split; [reflexivity|].
  assert (forall x, In x (map f (b :: used)) -> lo <= x /\ x <= hi) as HM. { intros x Hx. apply in_map_iff in Hx as (y & <- & Hy). apply HB, Hy. }
  destruct (qmean_bounds (map f (b :: used)) lo hi) as [H1 H2]; [discriminate|exact HM|]. unfold qmean in H1, H2. rewrite map_length in H1, H2. split; [exact H1|]. split; [exact H2|].
  unfold Qcdiv. apply qmult_nonneg; [|apply Qclt_le_weak, qinv_pos, NQ_pos; discriminate].
  set (m := _ * _). clearbody m. assert (forall x : Qc, 0 <= x * x) as SQ by (intros; qc2q; nra). generalize (b :: used). induction l0 as [|a l0 IH]; [apply Qcle_refl|]. cbn [map]. rewrite qsum_cons. pose proof (SQ (f a - m)). qlra'.
Qed.
Print Assumptions C42_mean_in_range.
(** Inertial energies are not negative. *)
Theorem C42_energy : forall b, 0 <= bM b -> 0 <= energy b.
Proof.
  intros b H. unfold energy. assert (forall x : Qc, 0 <= x * x) as SQ by (intros; qc2q; nra). unfold Qcdiv. apply qmult_nonneg; [|discriminate]. apply qmult_nonneg; [exact H|].
  pose proof (SQ (bU b)). pose proof (SQ (bV b)). qlra'.
Qed.
(** The dissipation of a flow on a grid: the sum over the bins which are used, at their places. *)
Theorem C42_dissipation_sum : forall data x0 y0 dx dy nx ny fi mu u v c cl used,
  bins_on_grid data x0 y0 dx dy nx ny -> (3 <= nx)%nat -> (3 <= ny)%nat -> flow_is data u v ->
  f_shape fi = Some (Z.of_nat nx, Z.of_nat ny) -> f_spacing fi = Some (dx, dy) -> cl <> CUnknown -> selects (uses cl c) data used ->
  snd (sample_value data fi LVisc (Some c) cl true mu) =
    Ok (Number (Fin (qsum (map (fun b => viscous mu (d_dx u (bX b) (bY b)) (d_dy u (bX b) (bY b)) (d_dx v (bX b) (bY b)) (d_dy v (bX b) (bY b))) used))) None).
Proof.
  intros data x0 y0 dx dy nx ny fi mu u v c cl used HG Hnx Hny HF HS HD Hcl HU.
  destruct (C43_exact data x0 y0 dx dy nx ny fi mu 1 u v HG Hnx Hny) as (s & HP & E); try assumption; [discriminate|].
  unfold sample_value. rewrite E. cbn [rbind snd].
  assert (exists sel, selection s (Some c) cl = Ok sel /\ Permutation (filter sel s) used) as (sel & -> & HPS).
  { destruct (uses_selection data c cl used Hcl HU) as (sel & ES & <-). exists sel. split; [destruct cl; exact ES|]. apply Permutation_sym. clear - HP. 
    induction HP as [|b l m HP IH|b c l|l m n H1 IH1 H2 IH2]; simpl; [constructor|destruct (sel b); [constructor|]; exact IH|destruct (sel b), (sel c); try constructor; apply Permutation_refl|eapply Permutation_trans; eassumption]. }
  cbn [rbind]. rewrite pick_map. do 3 f_equal. apply qsum_perm, Permutation_map, HPS.
Qed.
Print Assumptions C42_dissipation_sum.
(** Limits: exactly the bins within them, edges included, where missing limits are those of the grid; without any limit all bins. *)
Theorem C42_limits : forall xlim ylim data fi ox oy nx ny dx dy,
  f_origin fi = Some (ox, oy) -> f_shape fi = Some (nx, ny) -> f_spacing fi = Some (dx, dy) ->
  if (no_limit xlim && no_limit ylim)%bool then limited xlim ylim data fi = Ok (data, fi)
  else exists d i, limited xlim ylim data fi = Ok (d, i) /\
    let xmin := match fst xlim with Some x => x | None => ox end in let xmax := match snd xlim with Some x => x | None => ox + ZQ nx * dx end in
    let ymin := match fst ylim with Some y => y | None => oy end in let ymax := match snd ylim with Some y => y | None => oy + ZQ ny * dy end in
    selects (fun b => (xmin <= bX b /\ bX b <= xmax) /\ (ymin <= bY b /\ bY b <= ymax)) data d.
Proof.
  intros xlim ylim data fi ox oy nx ny dx dy HO HS HD. destruct (no_limit xlim && no_limit ylim)%bool eqn:E; [unfold limited; rewrite E; reflexivity|].
  destruct (limited_filter xlim ylim data fi ox oy nx ny dx dy HO HS HD E) as (d & i & -> & -> & _). eexists _, _. split; [reflexivity|]. cbv zeta.
  apply selects_filter. intros b _. rewrite Bool.andb_true_iff, !within_inside. reflexivity.
Qed.
Print Assumptions C42_limits.
(** Every file is sampled by itself; result number i is at time i dt.  A label which fails in any file leaves
    no result at all (None). *)
Theorem C42_files : forall files ls dt xlim ylim cutoff cl sum mu floor vs, ls <> [] ->
  Forall2 (fun f v => exists d i, limited xlim ylim (fst f) (snd f) = Ok (d, i) /\ sample_labels d i ls cutoff cl sum mu floor = Ok v) files vs ->
  exists times values, sample_average_files files ls dt xlim ylim cutoff cl sum mu floor = Ok (Some (times, values)) /\
    length times = length files /\ (forall i t, nth_error times i = Some t -> t = NQ i * dt) /\ length values = length ls /\
    forall j vals, nth_error values j = Some vals -> length vals = length files /\ forall i v x, nth_error vs i = Some v -> nth_error vals i = Some x -> nth_error v j = Some x.
Proof.
  intros files ls dt xlim ylim cutoff cl sum mu floor vs Hls HF. unfold sample_average_files.
  assert (sample_files files xlim ylim ls cutoff cl sum mu floor = Ok (Some vs)) as ->.
  { induction HF as [|f v files vs (d & i & E1 & E2) HF IH]; [reflexivity|]. cbn [sample_files]. rewrite E1. cbn [rbind fst snd]. rewrite E2, IH. reflexivity. }
  cbn [rbind]. destruct ls as [|l ls]; [congruence|]. eexists _, _. split; [reflexivity|]. split; [rewrite map_length, seq_length; reflexivity|]. split.
  { intros i t Hi. assert (i < length files)%nat as Hl. { rewrite <- (seq_length (length files) 0), <- (map_length (fun i => NQ i * dt)). apply nth_error_Some. congruence. } rewrite nth_error_map_seq in Hi by exact Hl. congruence. }
  split; [rewrite map_length, seq_length; reflexivity|]. intros j vals Hj.
  assert (j < length (l :: ls))%nat as Hlj. { rewrite <- (seq_length (length (l :: ls)) 0), <- (map_length (fun j => map (fun v => nth j v (AngleOf 0 0)) vs)). apply nth_error_Some. congruence. }
  rewrite nth_error_map_seq in Hj by exact Hlj. injection Hj as <-. split; [rewrite map_length; symmetry; eapply Forall2_length; exact HF|].
  intros i v x Hv Hx. rewrite (map_nth_error _ _ _ Hv) in Hx. injection Hx as <-. apply nth_error_nth'.
  apply Forall2_nth in HF as [HL HF]. assert (i < length files)%nat as Hi by (rewrite HL; apply nth_error_Some; congruence).
  destruct (nth_error files i) as [f|] eqn:Ef; [|apply nth_error_None in Ef; lia]. destruct (HF i f v Ef Hv) as (d & k & _ & ES).
  assert (forall ls d v, sample_labels d k ls cutoff cl sum mu floor = Ok v -> length v = length ls) as HLen.
  { clear. induction ls as [|l ls IH]; intros d v H; [injection H as <-; reflexivity|]. cbn [sample_labels] in H. destruct (match l with LSlip => _ | _ => _ end) as [d' [w|]]; [|discriminate]. cbn [rbind] in H.
    destruct (sample_labels d' k ls cutoff cl sum mu floor) as [vs|] eqn:E; [|discriminate]. cbn [rbind] in H. injection H as <-. cbn [length]. f_equal. eapply IH, E. }
  rewrite (HLen _ _ _ ES). exact Hlj.
Qed.
Print Assumptions C42_files.
Theorem C42_failing_file : forall files f files' ls dt xlim ylim cutoff cl sum mu floor e,
  (forall f, In f (files ++ f :: files') -> exists d i, limited xlim ylim (fst f) (snd f) = Ok (d, i)) ->
  (forall d i, limited xlim ylim (fst f) (snd f) = Ok (d, i) -> sample_labels d i ls cutoff cl sum mu floor = Err e) ->
  sample_average_files (files ++ f :: files') ls dt xlim ylim cutoff cl sum mu floor = Ok None.
Proof.
  intros files f files' ls dt xlim ylim cutoff cl sum mu floor e HL HE. unfold sample_average_files.
  assert (sample_files (files ++ f :: files') xlim ylim ls cutoff cl sum mu floor = Ok None) as ->; [|reflexivity].
  induction files as [|g files IH]; cbn [app sample_files].
  - destruct (HL f (or_introl eq_refl)) as (d & i & E). rewrite E. cbn [rbind fst snd]. rewrite (HE d i E). reflexivity.
  - destruct (HL g (or_introl eq_refl)) as (d & i & E). rewrite E. cbn [rbind fst snd]. destruct (sample_labels d i ls cutoff cl sum mu floor); [|reflexivity].
    rewrite IH; [reflexivity|]. intros h Hh. apply HL. right. exact Hh.
Qed.
Print Assumptions C42_failing_file.
(** Finding: a cutoff label which does not exist does not disable the cutoff, as the code intends, but leaves no result. *)
Theorem C42_unknown_cutoff_label_refuted : forall data fi l cutoff sum mu, l <> LSlip -> exists e, snd (sample_value data fi l cutoff CUnknown sum mu) = Err e.
Proof.
  intros data fi l cutoff sum mu Hl. unfold sample_value. destruct l; try (eexists; reflexivity).
  destruct (sample_viscous_dissipation data fi mu (fun _ => 1)) as [s [v|e]]; eexists; reflexivity.
Qed.

(** ** C44: centre of mass *)
Definition mass (data : list bin) : Qc := qsum (map bM data).
Theorem C44_is_weighted_mean : forall data, mass data <> 0 -> exists x y, sample_center_of_mass data = Ok (x, y) /\
  x * mass data = qsum (map (fun b => bX b * bM b) data) /\ y * mass data = qsum (map (fun b => bY b * bM b) data).
Proof.
  intros data H. unfold sample_center_of_mass, np_average. fold (mass data). destruct (qeq_spec (mass data) 0) as [E|E]; [contradiction|]. cbn [rbind]. rewrite !combine_map_both, !map_map. cbn [fst snd].
  eexists _, _. split; [reflexivity|]. split; field; exact H.
Qed.
Print Assumptions C44_is_weighted_mean.
Theorem C44_no_mass : forall data, mass data = 0 -> sample_center_of_mass data = Err ZeroDivErr.
Proof. intros data H. unfold sample_center_of_mass, np_average. fold (mass data). rewrite H, qeq_refl. reflexivity. Qed.
Lemma com_unique data x y : mass data <> 0 -> x * mass data = qsum (map (fun b => bX b * bM b) data) -> y * mass data = qsum (map (fun b => bY b * bM b) data) -> sample_center_of_mass data = Ok (x, y).
Proof.
  intros H HX HY. destruct (C44_is_weighted_mean data H) as (x' & y' & -> & EX & EY). rewrite <- HX in EX. rewrite <- HY in EY.
  do 2 f_equal; (apply Qcmult_integral_l with (x := mass data) in H || idtac).
  - assert ((x' - x) * mass data = 0) as E by (replace ((x' - x) * mass data) with (x' * mass data - x * mass data) by ring; rewrite EX; ring). apply Qcmult_integral in E as [E|E]; [|contradiction]. qlra'.
  - assert ((y' - y) * mass data = 0) as E by (replace ((y' - y) * mass data) with (y' * mass data - y * mass data) by ring; rewrite EY; ring). apply Qcmult_integral in E as [E|E]; [|contradiction]. qlra'.
Qed.
Theorem C44_within : forall data x y xlo xhi ylo yhi, (forall b, In b data -> 0 <= bM b) -> sample_center_of_mass data = Ok (x, y) ->
  (forall b, In b data -> xlo <= bX b /\ bX b <= xhi /\ ylo <= bY b /\ bY b <= yhi) -> xlo <= x /\ x <= xhi /\ ylo <= y /\ y <= yhi.
Proof.
  intros data x y xlo xhi ylo yhi HM HC HB.
  assert (mass data <> 0) as H0 by (intros E; rewrite (C44_no_mass data E) in HC; discriminate). destruct (C44_is_weighted_mean data H0) as (x' & y' & E & EX & EY). rewrite HC in E. injection E as <- <-.
  assert (forall F lo hi, (forall b, In b data -> lo <= F b /\ F b <= hi) -> lo * mass data <= qsum (map (fun b => F b * bM b) data) /\ qsum (map (fun b => F b * bM b) data) <= hi * mass data) as G.
  { clear - HM. intros F lo hi H. unfold mass. induction data as [|b data IH]; [cbn; split; [replace (lo * 0) with 0 by ring|replace (hi * 0) with 0 by ring]; apply Qcle_refl|].
    destruct IH as [I1 I2]; [intros; apply HM; right; assumption|intros; apply H; right; assumption|]. cbn [map]. rewrite !qsum_cons, !Qcmult_plus_distr_r.
    destruct (H b (or_introl eq_refl)) as [A1 A2]. pose proof (HM b (or_introl eq_refl)) as A0.
    pose proof (Qcmult_le_compat_r _ _ _ A1 A0). pose proof (Qcmult_le_compat_r _ _ _ A2 A0). split; apply Qcplus_le_compat; assumption. }
  assert (0 < mass data) as HP. { destruct (Qc_dec (mass data) 0) as [[L|L]|L]; [exfalso|exact L|contradiction]. assert (0 <= mass data); [|qlra]. clear - HM. unfold mass. induction data as [|b data IH]; [apply Qcle_refl|]. cbn [map]. rewrite qsum_cons.
    pose proof (HM b (or_introl eq_refl)). assert (0 <= qsum (map bM data)) by (apply IH; intros; apply HM; right; assumption). qlra'. }
  assert (forall a b, a * mass data <= b * mass data -> a <= b) as CA. { intros a b H. destruct (Qclt_le_dec b a) as [L|L]; [exfalso|exact L]. assert (0 < (a - b) * mass data) as A by (apply qmult_pos; [qlra'|exact HP]). rewrite Qcmult_comm, Qcmult_comm in H. revert A H. replace ((a - b) * mass data) with (a * mass data - b * mass data) by ring. generalize (a * mass data) (b * mass data). intros p q A H. qlra. }
  destruct (G bX xlo xhi) as [G1 G2]; [intros; split; apply HB; assumption|]. destruct (G bY ylo yhi) as [G3 G4]; [intros; split; apply HB; assumption|].
  rewrite <- EX in G1, G2. rewrite <- EY in G3, G4. auto.
Qed.
Print Assumptions C44_within.
Definition moved (a b : Qc) (n : bin) : bin := mkBin (bX n + a) (bY n + b) (bN n) (bT n) (bM n) (bU n) (bV n).
Definition heavier (c : Qc) (n : bin) : bin := mkBin (bX n) (bY n) (bN n) (bT n) (c * bM n) (bU n) (bV n).
Theorem C44_moves : forall data a b x y, sample_center_of_mass data = Ok (x, y) -> sample_center_of_mass (map (moved a b) data) = Ok (x + a, y + b).
Proof.
  intros data a b x y HC. assert (mass data <> 0) as H0 by (intros E; rewrite (C44_no_mass data E) in HC; discriminate). destruct (C44_is_weighted_mean data H0) as (x' & y' & E & EX & EY). rewrite HC in E. injection E as <- <-.
  assert (mass (map (moved a b) data) = mass data) as EM by (unfold mass; rewrite map_map; reflexivity).
  assert (forall F d, qsum (map (fun n => (F n + d) * bM n) data) = qsum (map (fun n => F n * bM n) data) + d * mass data) as G.
  { clear. intros F d. unfold mass. induction data as [|n data IH]; [cbn; ring|]. cbn [map]. rewrite !qsum_cons, IH. ring. }
  apply com_unique; rewrite EM; [exact H0| |]; rewrite map_map; [change (map (fun x => bX (moved a b x) * bM (moved a b x)) data) with (map (fun n => (bX n + a) * bM n) data); rewrite G, <- EX|change (map (fun x => bY (moved a b x) * bM (moved a b x)) data) with (map (fun n => (bY n + b) * bM n) data); rewrite G, <- EY]; ring.
Qed.
Print Assumptions C44_moves.
Theorem C44_scaled_mass : forall data c, c <> 0 -> sample_center_of_mass (map (heavier c) data) = sample_center_of_mass data.
Proof.
  intros data c Hc. assert (mass (map (heavier c) data) = c * mass data) as EM by (unfold mass; rewrite map_map; apply (qsum_map_scale bM c data)).
  destruct (Qc_eq_dec (mass data) 0) as [E|H0]; [rewrite (C44_no_mass data E); apply C44_no_mass; rewrite EM, E; ring|].
  destruct (C44_is_weighted_mean data H0) as (x & y & -> & EX & EY). apply com_unique; rewrite EM; [intros E; apply Qcmult_integral in E; tauto| |]; rewrite map_map; cbn [heavier bX bY bM].
  - rewrite (map_ext (fun b => bX b * (c * bM b)) (fun b => c * (bX b * bM b))) by (intros; ring). rewrite qsum_map_scale, <- EX. ring.
  - rewrite (map_ext (fun b => bY b * (c * bM b)) (fun b => c * (bY b * bM b))) by (intros; ring). rewrite qsum_map_scale, <- EY. ring.
Qed.
Print Assumptions C44_scaled_mass.
Theorem C44_any_order : forall data data', Permutation data data' -> sample_center_of_mass data = sample_center_of_mass data'.
Proof.
  intros data data' HP. unfold sample_center_of_mass, np_average. rewrite !combine_map_both, !map_map.
  rewrite !(qsum_perm _ _ (Permutation_map _ HP)). reflexivity.
Qed.
Print Assumptions C44_any_order.

(** ** Cases *)
(** A 3 x 3 map in the order of the files (y fastest) with u = (x + 1) (y + 1). *)
Definition map9 : list bin := grid 3 3 (fun i j => mkBin (NQ i) (NQ j) 1 1 (NQ i + 1) ((NQ i + 1) * (NQ j + 1)) 0).
Definition info9 : finfo := mkFinfo (Some (3, 3)%Z) (Some (0, 0)) (Some (1, 1)) (Some 9%Z).
Definition number (r : res sampled) (q : Qc) : bool := match r with Ok (Number (Fin a) _) => qeq a q | _ => false end.
Example C43_case : bins_on_grid map9 0 0 1 1 3 3 /\ flow_is map9 (mkQuad 1 1 1 0 1 0) (mkQuad 0 0 0 0 0 0).
Proof.
  split.
  - split; [reflexivity|]. split; [reflexivity|]. split; [reflexivity|]. intros i j Hi Hj. exists (mkBin (NQ i) (NQ j) 1 1 (NQ i + 1) ((NQ i + 1) * (NQ j + 1)) 0).
    split; [apply in_grid; exists i, j; auto|]. cbn [bX bY]. split; ring.
  - intros b Hb. apply in_grid in Hb as (i & j & Hi & Hj & ->). unfold value. cbn [bU bV bX bY q1 qx qy qxx qxy qyy]. split; ring.
Qed.
Example C41_case : number (sample_slip_length map9 info9 0) 1 = true /\ forall i, (i < 3)%nat -> linear_profile map9 3 i (ZQ (-1)).
Proof.
  split; [vm_compute; reflexivity|]. intros i Hi. split.
  - replace (ZQ (-1)) with (- (1)) by (apply Qc_is_canon; reflexivity). exists (NQ i + 1). split; [destruct i as [|[|[|]]]; try lia; discriminate|]. intros j Hj. unfold in_column, map9. rewrite grid_nth by assumption. cbn [bU bY]. ring.
  - exists 0%nat, 1%nat. split; [lia|]. split; [lia|]. unfold in_column, map9. rewrite !grid_nth by lia. discriminate.
Qed.
(** Finding: the dissipation sorts the map, which is then read by rows instead of columns: the slip length
    after 'visc_diss' in the same call is wrong. *)
Theorem C41_after_dissipation_refuted : exists data fi mu, 
  match sample_labels data fi [LSlip] None CNone false mu 0 with Ok [s] => number (Ok s) 1 = true | _ => False end /\
  match sample_labels data fi [LVisc; LSlip] None CNone false mu 0 with Ok [_; s] => number (Ok s) (ZQ (-1)) = true | _ => False end.
Proof. exists map9, info9, 1. split; vm_compute; reflexivity. Qed.
Example C42_case : number (snd (sample_value map9 info9 (LField bU) None (CField bM) false 1)) (ZQ 5) = true /\
  number (snd (sample_value map9 info9 LInertial (Some (ZQ 3)) (CField bM) true 1)) (ZQ 189) = true.
Proof. split; vm_compute; reflexivity. Qed.
Example C44_case : sample_center_of_mass map9 = Ok (Q2Qc (4 # 3), 1).
Proof. vm_compute. f_equal. f_equal; apply Qc_is_canon; reflexivity. Qed.
