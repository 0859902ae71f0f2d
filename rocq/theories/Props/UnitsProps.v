(** C91: maps in other units. *)
From Coq Require Import Reals Lia String.
From Verif.Base Require Import QcX QcR Res Np.
From Verif.Model Require Import Bins Flow Interface ContactLine ContactAngle Spreading Sample.
From Verif.Spec Require Import UnitsSpec.
From Verif.Proofs Require Import UnitsP.
Local Open Scope list_scope.
Local Open Scope Qc_scope.

(** ** Interfaces *)
Section Map.
Variables (u : units) (V W : bin -> Qc) (k v0 : Qc) (data : list bin) (fi : finfo).
Hypotheses (Hu : units_ok u) (Hk : 0 < k) (HV : forall b, W (in_units u b) = k * V b + v0).
Let v (c : Qc) : Qc := k * c + v0.
Let data' := map (in_units u) data.
Let fi' := info_in_units u fi.
Lemma cutoff_units o : get_cutoff W (option_map v o) data' = rmap (option_map v) (get_cutoff V o data).
Proof.
  unfold get_cutoff, data'. destruct o as [c|]; [reflexivity|]. cbn [option_map]. assert (map W (map (in_units u) data) = map v (map V data)) as -> by (rewrite !map_map; apply map_ext; intros b; apply HV).
  unfold v. rewrite (list_min_aff k v0 Hk), (list_max_aff k v0 Hk). destruct (list_min (map V data)) as [a|]; [|reflexivity]. destruct (list_max (map V data)) as [b|]; [|reflexivity]. cbn [option_map].
  rewrite (qeq_aff k v0 Hk). destruct (qeq a b); [reflexivity|]. cbn [rmap rbind option_map]. apply f_equal, f_equal. assert (Q2Qc (1 # 2) + Q2Qc (1 # 2) = 1) as E by (apply Qc_is_canon; reflexivity).
  transitivity (k * (Q2Qc (1 # 2) * (a + b)) + (Q2Qc (1 # 2) + Q2Qc (1 # 2)) * v0); [ring|]. rewrite E. ring.
Qed.
Lemma radius_default_units o : get_radius (option_map (new_length u) o) data' = rmap (new_length u) (get_radius o data).
Proof.
  unfold get_radius, data'. destruct o as [r|]; [reflexivity|]. cbn [option_map]. rewrite map_bX. unfold new_x. rewrite (unique_aff (u_len u) (u_x0 u) (s_pos u Hu)), (qdiff_aff (u_len u) (u_x0 u)).
  assert (forall l, map (fun d => u_len u * d) l = map (fun d => u_len u * d + 0) l) as -> by (intros l; apply map_ext; intros d; ring). rewrite (list_min_aff (u_len u) 0 (s_pos u Hu)).
  destruct (list_min _); [|reflexivity]. cbn [option_map of_option rmap rbind]. unfold new_length. f_equal. ring.
Qed.
Lemma size_units : size fi' = option_map (fun p => (new_length u (fst p), new_length u (snd p))) (size fi).
Proof.
  unfold size, fi', info_in_units. cbn [f_shape f_spacing]. destruct (f_shape fi) as [[nx ny]|]; [|reflexivity]. destruct (f_spacing fi) as [[dx dy]|]; [|reflexivity]. cbn [option_map fst snd]. unfold new_length. do 2 f_equal; ring.
Qed.
Theorem interface_units : forall o, (longest_opt o = true -> u_x0 u = 0) -> get_interface W data' fi' (options_in_units u v o) = get_interface V data fi o.
Proof.
  intros o Ho. unfold get_interface, options_in_units. cbn [cutoff_opt radius_opt bins_opt longest_opt ylims_opt fst snd]. rewrite cutoff_units, radius_default_units.
  destruct (get_cutoff V (cutoff_opt o) data) as [[c|]|]; [|reflexivity|reflexivity]. cbn [rmap rbind option_map]. destruct (get_radius (radius_opt o) data) as [r|]; [|reflexivity]. cbn [rmap rbind].
  destruct (longest_opt o).
  - rewrite size_units. destruct (size fi) as [[bx b_]|]; [|reflexivity]. cbn [option_map fst snd]. apply (longest_units u V W k v0 Hu Hk HV (Ho eq_refl)).
  - apply (walls_units u V W k v0 Hu Hk HV).
Qed.

(** ** Contact line cells *)
Lemma cx_units i : (i < length data)%nat -> cx data' i = new_x u (cx data i).
Proof. intros H. unfold cx, data'. rewrite nth_units by exact H. reflexivity. Qed.
Lemma cy_units i : (i < length data)%nat -> cy data' i = new_y u (cy data i).
Proof. intros H. unfold cy, data'. rewrite nth_units by exact H. reflexivity. Qed.
Lemma up_to_units y pairs : (forall p, In p pairs -> (fst p < length data)%nat) -> up_to data' (new_y u y) pairs = up_to data y pairs.
Proof.
  induction pairs as [|p pairs IH]; intros H; [reflexivity|]. cbn [up_to]. rewrite cy_units by (apply H; left; reflexivity). unfold new_y. rewrite (qlt_aff (u_len u) (u_y0 u) (s_pos u Hu)).
  destruct (qlt y (cy data (fst p))); [reflexivity|]. f_equal. apply IH. intros q Hq. apply H. right. exact Hq.
Qed.
Lemma of_height_units pairs h : (forall p, In p pairs -> (fst p < length data)%nat) -> interface_of_height data' pairs (new_length u h) = interface_of_height data pairs h.
Proof.
  destruct pairs as [|p pairs]; intros H; [reflexivity|]. cbn [interface_of_height]. f_equal. rewrite cy_units by (apply H; left; reflexivity).
  replace (new_y u (cy data (fst p)) + new_length u h) with (new_y u (cy data (fst p) + h)) by (unfold new_y, new_length; ring). apply up_to_units. intros q Hq. apply H. right. exact Hq.
Qed.
Lemma place_units y n rest : (forall j, In j rest -> (j < length data)%nat) -> place data' (new_y u y) n rest = place data y n rest.
Proof.
  revert n. induction rest as [|j rest IH]; intros n H; [reflexivity|]. cbn [place]. rewrite cy_units by (apply H; left; reflexivity). unfold new_y at 1 2. rewrite (qle_aff (u_len u) (u_y0 u) (s_pos u Hu)).
  destruct (qle (cy data j) y); [|reflexivity]. apply IH. intros i Hi. apply H. right. exact Hi.
Qed.
Lemma place_bound y rest : forall n, (place data y n rest <= n + length rest)%nat.
Proof. induction rest as [|j rest IH]; intros n; [cbn; lia|]. cbn [place length]. destruct (qle _ _); [specialize (IH (S n)); lia|lia]. Qed.
Lemma last_in (l : list nat) : l <> [] -> In (last l 0%nat) l.
Proof. intros H. destruct (exists_last H) as (m & x & ->). rewrite last_last. apply in_or_app. right. left. reflexivity. Qed.
Lemma cells_units inds w eh : (forall j, In j inds -> (j < length data)%nat) -> cells_of_edge data' inds (new_length u w) (new_length u eh) = map (in_units u) (cells_of_edge data inds w eh).
Proof.
  intros H. unfold cells_of_edge. destruct inds as [|i0 rest]; [reflexivity|]. pose proof (s_pos u Hu) as Hs.
  rewrite cy_units by (apply H; left; reflexivity). replace (new_y u (cy data i0) + new_length u eh) with (new_y u (cy data i0 + eh)) by (unfold new_y, new_length; ring).
  rewrite place_units by (intros j Hj; apply H; right; exact Hj). set (pl := place _ _ _ _). assert (nth pl (i0 :: rest) 0%nat < length data)%nat as Hp.
  { apply H. apply nth_In. unfold pl. pose proof (place_bound (cy data i0 + eh) rest 0). cbn [length]. lia. }
  rewrite cx_units by exact Hp. assert (map (cx data') (i0 :: rest) = map (new_x u) (map (cx data) (i0 :: rest))) as -> by (rewrite map_map; apply map_ext_in; intros j Hj; apply cx_units; apply H; exact Hj).
  unfold new_x at 1 2 4. rewrite (list_min_aff _ _ Hs), (list_max_aff _ _ Hs). destruct (list_min _) as [lo|]; [|reflexivity]. destruct (list_max _) as [hi|]; [|reflexivity]. cbn [option_map].
  rewrite !cy_units by (apply H; first [left; reflexivity|apply last_in; discriminate]).
  unfold data'. rewrite filter_map. f_equal. apply filter_ext. intros b. set (a := cx data (nth pl (i0 :: rest) 0%nat)). cbn [in_units bX bY].
  unfold new_x, new_y, new_length. replace (u_len u * a + u_x0 u + u_len u * w) with (u_len u * (a + w) + u_x0 u) by ring. rewrite (qmin_aff _ _ Hs), (qmax_aff _ _ Hs), !(qle_aff _ _ Hs). reflexivity.
Qed.
Lemma contact_units o w h eh : (longest_opt o = true -> u_x0 u = 0) ->
  get_contact_line_cells W data' fi' (options_in_units u v o) (new_length u w, new_length u h) (new_length u eh) =
  rmap (fun p => (map (in_units u) (fst p), map (in_units u) (snd p))) (get_contact_line_cells V data fi o (w, h) eh).
Proof.
  intros Ho. unfold get_contact_line_cells. rewrite interface_units by exact Ho. destruct (get_interface V data fi o) as [pairs|] eqn:E; [|reflexivity]. cbn [rbind rmap fst snd].
  assert (forall p, In p pairs -> (fst p < length data /\ snd p < length data)%nat) as HB by (intros p Hp; eapply interface_bound; [exact E|exact Hp]).
  rewrite of_height_units by (intros p Hp; apply HB; exact Hp). set (inds := interface_of_height data pairs h).
  assert (forall p, In p inds -> In p pairs) as HI.
  { intros p Hp. unfold inds, interface_of_height in Hp. destruct pairs as [|p0 pairs]; [destruct Hp|]. destruct Hp as [<- | Hp]; [left; reflexivity|right]. revert Hp. generalize (cy data (fst p0) + h). clear. intros y. induction pairs as [|q pairs IH]; [intros []|]. cbn [up_to].
    destruct (qlt _ _); [intros []|]. intros [<- | Hp]; [left; reflexivity|right; apply IH; exact Hp]. }
  rewrite cells_units by (intros j Hj; apply in_map_iff in Hj as (p & <- & Hp); apply HB, HI; exact Hp).
  replace (- new_length u w) with (new_length u (- w)) by (unfold new_length; ring).
  rewrite cells_units by (intros j Hj; apply in_map_iff in Hj as (p & <- & Hp); apply HB, HI; exact Hp). reflexivity.
Qed.

(** ** Contact angles *)
Lemma argmin_scale f l : 0 < f -> argmin (map (fun x => f * x) l) = argmin l.
Proof.
  intros Hf. destruct l as [|x l]; [reflexivity|]. cbn [map argmin]. f_equal. generalize 0%nat 1%nat. revert x. induction l as [|y l IH]; intros x b i; [reflexivity|]. cbn [map argmin_from]. rewrite qlt_scale by exact Hf. destruct (qlt y x); apply IH.
Qed.
Lemma argmin_bound l j : argmin l = Some j -> (j < length l)%nat.
Proof.
  destruct l as [|x l]; [discriminate|]. cbn [argmin]. intros H. injection H as <-. assert (forall l best bi i, (bi < i)%nat -> (argmin_from best bi i l < i + List.length l)%nat) as B; [|specialize (B l x 0%nat 1%nat ltac:(lia)); cbn [length]; lia].
  clear. induction l as [|y l IH]; intros best bi i H; [cbn; lia|]. cbn [argmin_from length]. destruct (qlt y best); [specialize (IH y i (S i) ltac:(lia))|specialize (IH best bi (S i) ltac:(lia))]; lia.
Qed.
Lemma qabs_scale f x : 0 < f -> qabs (f * x) = f * qabs x.
Proof.
  intros Hf. unfold qabs. replace 0 with (f * 0) at 1 by ring. rewrite qle_scale by exact Hf. destruct (qle 0 x); ring.
Qed.
Lemma floor_units floor : floor_height data' (option_map (new_y u) floor) = rmap (option_map (new_y u)) (floor_height data floor).
Proof.
  destruct floor as [f|]; [|reflexivity]. cbn [option_map floor_height]. assert (map (fun b => qabs (bY b - new_y u f)) data' = map (fun x => u_len u * x) (map (fun b => qabs (bY b - f)) data)) as ->.
  { unfold data'. rewrite !map_map. apply map_ext. intros b. cbn [in_units bY]. rewrite <- (qabs_scale _ _ (s_pos u Hu)). f_equal. unfold new_y. ring. }
  rewrite argmin_scale by exact (s_pos u Hu). destruct (argmin _) as [j|] eqn:E; [|reflexivity]. cbn [of_option rbind rmap option_map]. apply argmin_bound in E. rewrite map_length in E. rewrite cy_units by exact E. reflexivity.
Qed.
Definition scaled (t : Qc * Qc * Qc) : Qc * Qc * Qc := let '(a, b, c) := t in (new_length u a, new_length u b, new_length u c).
Lemma loop_units y0 xl xr h pairs : (forall p, In p pairs -> (fst p < length data /\ snd p < length data)%nat) -> forall acc,
  angle_loop data' (new_y u y0) (new_x u xl) (new_x u xr) (new_length u h) pairs (option_map scaled acc) = option_map scaled (angle_loop data y0 xl xr h pairs acc).
Proof.
  induction pairs as [|[l r] pairs IH]; intros H acc; [reflexivity|]. cbn [angle_loop]. destruct (H (l, r) (or_introl eq_refl)) as [Hl Hr]. cbn [fst snd] in Hl, Hr. rewrite !cx_units, cy_units by assumption.
  replace (new_y u (cy data l) - new_y u y0) with (new_length u (cy data l - y0)) by (unfold new_y, new_length; ring). unfold new_length at 1 2. rewrite qle_scale by exact (s_pos u Hu).
  destruct (qle (cy data l - y0) h); [|reflexivity]. rewrite <- IH by (intros p Hp; apply H; right; exact Hp). f_equal. cbn [option_map scaled]. do 2 f_equal; unfold new_x, new_length; [f_equal; ring|ring].
Qed.
Lemma triangle_units o h floor : (longest_opt o = true -> u_x0 u = 0) ->
  contact_triangle W data' fi' (options_in_units u v o) (new_length u h) (option_map (new_y u) floor) = rmap (option_map scaled) (contact_triangle V data fi o h floor).
Proof.
  intros Ho. unfold contact_triangle. rewrite floor_units. destruct (floor_height data floor) as [yf|]; [|reflexivity]. cbn [rmap rbind].
  set (o' := mkIopts (cutoff_opt o) (radius_opt o) (bins_opt o) (longest_opt o) (yf, None)).
  change (mkIopts (cutoff_opt (options_in_units u v o)) _ _ _ (option_map (new_y u) yf, None)) with (options_in_units u v o'). rewrite interface_units by exact Ho.
  destruct (get_interface V data fi o') as [pairs|] eqn:E; [|reflexivity]. cbn [rbind]. assert (forall p, In p pairs -> (fst p < length data /\ snd p < length data)%nat) as HB by (intros p Hp; eapply interface_bound; [exact E|exact Hp]).
  destruct pairs as [|[l r] rest]; [reflexivity|]. destruct (HB (l, r) (or_introl eq_refl)) as [Hl Hr]. cbn [fst snd] in Hl, Hr. rewrite !cx_units, cy_units by assumption.
  assert (match option_map (new_y u) yf with Some f => negb (qeq (new_y u (cy data l)) f) | None => false end = match yf with Some f => negb (qeq (cy data l) f) | None => false end) as ->.
  { destruct yf as [f|]; [|reflexivity]. cbn [option_map]. unfold new_y. rewrite (qeq_aff _ _ (s_pos u Hu)). reflexivity. }
  destruct (match yf with Some f => _ | None => _ end); [reflexivity|]. pose proof (loop_units (cy data l) (cx data l) (cx data r) h rest ltac:(intros p Hp; apply HB; right; exact Hp) None) as L. cbn [option_map] in L. rewrite L.
  destruct (angle_loop data _ _ _ _ _ _); reflexivity.
Qed.
Lemma angle_units t : angles (scaled t) = angles t.
Proof.
  destruct t as [[a b] c]. unfold scaled, angles. pose proof (s_pos u Hu) as Hs. assert (0 < QR (u_len u))%R as HR by (apply QR_pos; exact Hs).
  assert (forall y x, atan2 (QR (new_length u y)) (QR (new_length u x)) = atan2 (QR y) (QR x)) as A; [|rewrite !A; reflexivity].
  intros y x. unfold new_length. rewrite !QR_mul. generalize (QR y) (QR x) (QR (u_len u)) HR. clear. intros y x f Hf. unfold atan2.
  assert (forall z, (0 < f * z <-> 0 < z)%R) as P by (intros z; split; intros H; [apply (Rmult_lt_reg_l f); [exact Hf|rewrite Rmult_0_r; exact H]|apply Rmult_lt_0_compat; assumption]).
  assert (forall z, (f * z < 0 <-> z < 0)%R) as N.
  { intros z. specialize (P (- z)%R). rewrite Ropp_mult_distr_r_reverse in P. split; intros H; apply Ropp_lt_cancel; rewrite Ropp_0; [apply (proj1 P)|apply (proj2 P)]; apply Ropp_0_gt_lt_contravar; exact H. }
  assert (forall z, (0 <= f * z <-> 0 <= z)%R) as Z by (intros z; specialize (N z); split; intros H; apply Rnot_lt_le; intros C; [apply (proj2 N) in C|apply (proj1 N) in C]; exact (Rlt_not_le _ _ C H)).
  assert (x <> 0%R -> f * y / (f * x) = y / x)%R as D by (intros HX; field; split; first [exact HX|apply Rgt_not_eq; exact Hf]).
  assert (forall (A B : Prop) (d : {A} + {~ A}) (e : {B} + {~ B}) (X : Type) (t n : X), (A <-> B) -> (if d then t else n) = (if e then t else n)) as I.
  { intros A B [a|a] [b|b] X t n H; try reflexivity; tauto. }
  rewrite (I _ _ (Rlt_dec 0 (f * x)) (Rlt_dec 0 x) _ _ _ (P x)). destruct (Rlt_dec 0 x) as [B|B]; [rewrite D by (apply Rgt_not_eq; exact B); reflexivity|].
  rewrite (I _ _ (Rlt_dec (f * x) 0) (Rlt_dec x 0) _ _ _ (N x)). destruct (Rlt_dec x 0) as [C|C].
  - rewrite D by (apply Rlt_not_eq; exact C). apply I. apply Z.
  - rewrite (I _ _ (Rlt_dec 0 (f * y)) (Rlt_dec 0 y) _ _ _ (P y)). destruct (Rlt_dec 0 y); [reflexivity|]. apply I. apply N.
Qed.
Lemma contact_angle_units o h floor : (longest_opt o = true -> u_x0 u = 0) ->
  get_contact_angle W data' fi' (options_in_units u v o) (new_length u h) (option_map (new_y u) floor) = get_contact_angle V data fi o h floor.
Proof.
  intros Ho. unfold get_contact_angle. rewrite triangle_units by exact Ho. destruct (contact_triangle V data fi o h floor) as [[t|]|]; [|reflexivity|reflexivity]. cbn [rmap rbind option_map]. rewrite angle_units. reflexivity.
Qed.

(** ** Spreading edges *)
Lemma spreading_units cutoff radius nb longest : (longest = true -> u_x0 u = 0) ->
  get_spreading_edges W data' fi' (option_map v cutoff) (option_map (new_length u) radius) nb longest None =
  rmap (option_map (fun p => (new_x u (fst p), new_x u (snd p)))) (get_spreading_edges V data fi cutoff radius nb longest None).
Proof.
  intros Ho. unfold get_spreading_edges. cbn [get_floor_height rbind]. set (o := mkIopts cutoff radius nb longest (None, None)).
  change (mkIopts (option_map v cutoff) (option_map (new_length u) radius) nb longest (None, None)) with (options_in_units u v o). rewrite interface_units by exact Ho.
  destruct (get_interface V data fi o) as [pairs|] eqn:E; [|reflexivity]. cbn [rbind rmap]. destruct pairs as [|[l r] pairs]; [reflexivity|]. cbn [find].
  destruct (interface_bound _ _ _ _ _ (l, r) E (or_introl eq_refl)) as [Hl Hr]. cbn [fst snd] in Hl, Hr. cbn [option_map fst snd]. unfold data'. rewrite !nth_units by assumption. reflexivity.
Qed.
End Map.

(** ** Collected spreading *)
Section Collected.
Variable s : Qc.
Hypothesis Hs : 0 < s.
Let S0 : forall x y, s * x + s * y = s * (x + y). Proof. intros. ring. Qed.
Lemma qmod_scale x b : qmod (s * x) (s * b) = s * qmod x b.
Proof.
  unfold qmod. assert (s * x / (s * b) = x / b) as ->; [|ring]. destruct (Qc_eq_dec b 0) as [-> |H].
  - replace (s * 0) with 0 by ring. unfold Qcdiv. assert (/ 0 = 0) as -> by (apply Qc_is_canon; reflexivity). ring.
  - field. split; [exact H|]. intros E. rewrite E in Hs. exact (Qclt_not_eq _ _ Hs eq_refl).
Qed.
Lemma addition_scale x b : mult_addition (s * x) (s * b) = mult_addition x b.
Proof. unfold mult_addition. rewrite qmod_scale. replace (s * b - s * qmod x b) with (s * (b - qmod x b)) by ring. rewrite qabs_scale, qlt_scale by exact Hs. reflexivity. Qed.
Lemma crossing_scale l r lp rp : crossing_event (s * l) (s * r) (s * lp) (s * rp) = crossing_event l r lp rp.
Proof. unfold crossing_event. rewrite !qlt_scale by exact Hs. reflexivity. Qed.
Let P (p : pinfo) : pinfo := mkP (option_map (fun e => (s * fst e, s * snd e)) (prev p)) (mleft p) (mright p).
Lemma update_scale p box l r : check_and_update (P p) (s * box) (s * l) (s * r) = P (check_and_update p box l r).
Proof.
  destruct p as [[[lp rp]|] ml mr]; unfold check_and_update, P; cbn [prev mleft mright option_map fst snd].
  - rewrite crossing_scale. replace (s * r - s * rp) with (s * (r - rp)) by ring. replace (s * l - s * lp) with (s * (l - lp)) by ring. rewrite !qabs_scale, !qlt_scale by exact Hs.
    replace (s * l + ZQ ml * (s * box)) with (s * (l + ZQ ml * box)) by ring. replace (s * r + ZQ mr * (s * box)) with (s * (r + ZQ mr * box)) by ring. rewrite !addition_scale.
    destruct (crossing_event l r lp rp); [|reflexivity]. destruct (qlt _ _); reflexivity.
  - rewrite qlt_scale by exact Hs. reflexivity.
Qed.
Lemma loop_scale dt save frames : forall i time p impact,
  collect_loop (map (frame_in_units s) frames) i dt time (P p) save impact =
  (let '(rows, lines, im) := collect_loop frames i dt time p save impact in (map (row_in_units s) rows, map (line_in_units s) lines, im)).
Proof.
  induction frames as [|[path box [[l r]|]] frames IH]; intros i time p impact; [reflexivity| |].
  - cbn [map frame_in_units collect_loop f_edges f_box f_path option_map fst snd]. rewrite update_scale. set (p' := check_and_update p box l r).
    unfold add_multipliers. cbn [P mleft mright]. change (mkP (option_map (fun e => (s * fst e, s * snd e)) (prev p')) (mleft p') (mright p')) with (P p'). rewrite IH. destruct (collect_loop frames _ _ _ p' _ _) as [[rows lines] im]. cbn [map row_in_units r_t r_r r_left r_right].
    replace (s * l + ZQ (mleft p') * (s * box)) with (s * (l + ZQ (mleft p') * box)) by ring. replace (s * r + ZQ (mright p') * (s * box)) with (s * (r + ZQ (mright p') * box)) by ring.
    set (la := l + ZQ (mleft p') * box). set (ra := r + ZQ (mright p') * box). replace (Q2Qc (1 # 2) * (s * ra - s * la)) with (s * (Q2Qc (1 # 2) * (ra - la))) by ring. rewrite qabs_scale by exact Hs.
    destruct save; [|reflexivity]. rewrite map_app. destruct impact; reflexivity.
  - cbn [map frame_in_units collect_loop f_edges option_map]. apply IH.
Qed.
Lemma collect_scale frames dt t0 save impact :
  collect (map (frame_in_units s) frames) dt t0 save impact = (let '(rows, lines, im) := collect frames dt t0 save impact in (map (row_in_units s) rows, map (line_in_units s) lines, im)).
Proof.
  unfold collect. change init_periodic_info with (P init_periodic_info) at 1. rewrite loop_scale. destruct (collect_loop _ _ _ _ _ _ _) as [[rows lines] im]. rewrite map_app. destruct save; reflexivity.
Qed.
End Collected.

(** ** Samples *)
Lemma pos_ne c : 0 < c -> c <> 0. Proof. intros H E. rewrite E in H. exact (Qclt_not_eq _ _ H eq_refl). Qed.
Lemma qsum_aff {A} (f : A -> Qc) a b l : qsum (map (fun x => a * f x + b) l) = a * qsum (map f l) + b * NQ (List.length l).
Proof. rewrite qsum_map_plus, qsum_map_scale, qsum_map_const. reflexivity. Qed.
Lemma combine_maps {A B C} (f : A -> B) (g : A -> C) l : combine (map f l) (map g l) = map (fun x => (f x, g x)) l.
Proof. induction l as [|x l IH]; [reflexivity|]. cbn [map combine]. rewrite IH. reflexivity. Qed.
Lemma average_aff (x x' m m' : bin -> Qc) (g : bin -> bin) a b c data : 0 < c -> (forall d, x' (g d) = a * x d + b) -> (forall d, m' (g d) = c * m d) ->
  np_average (map x' (map g data)) (map m' (map g data)) = rmap (fun v => a * v + b) (np_average (map x data) (map m data)).
Proof.
  intros Hc Hx Hm. unfold np_average. rewrite !map_map, !combine_maps, !map_map. cbn [fst snd].
  rewrite (map_ext _ _ Hm), qsum_map_scale. rewrite (map_ext (fun d => x' (g d) * m' (g d)) (fun d => (a * c) * (x d * m d) + (b * c) * m d)) by (intros d; rewrite Hx, Hm; ring).
  rewrite qsum_map_plus, !qsum_map_scale. set (M := qsum (map m data)). replace 0 with (c * 0) at 1 by ring. rewrite qeq_scale by exact Hc. destruct (qeq M 0) eqn:E; [reflexivity|].
  cbn [rmap rbind]. f_equal. set (X := qsum _). field. split; [intros E0; rewrite E0 in E; vm_compute in E; discriminate|apply pos_ne, Hc].
Qed.
Lemma qmean_aff {A} (f : A -> Qc) a b l : l <> [] -> qmean (map (fun x => a * f x + b) l) = a * qmean (map f l) + b.
Proof.
  intros H. unfold qmean. rewrite !map_length, qsum_aff. field. destruct l as [|x l]; [contradiction|]. cbn [List.length]. apply pos_ne, NQ_pos. lia.
Qed.
Lemma intercept_aff (U Y U' Y' : bin -> Qc) (g : bin -> bin) c s y0 col : 0 < c -> (forall b, U' (g b) = c * U b) -> (forall b, Y' (g b) = s * Y b + y0) ->
  intercept (map U' (map g col)) (map Y' (map g col)) = rmap (fun v => s * v + y0) (intercept (map U col) (map Y col)).
Proof.
  intros Hc HU HY. destruct col as [|b0 col0]; [reflexivity|]. set (col := b0 :: col0). assert (col <> []) as N by discriminate. clearbody col. clear b0 col0.
  unfold intercept. rewrite !map_map, !combine_maps, !map_map. cbn [fst snd].
  rewrite (map_ext (fun b => U' (g b)) (fun b => c * U b + 0)) by (intros b; rewrite HU; ring). rewrite (map_ext (fun b => Y' (g b)) (fun b => s * Y b + y0)) by exact HY.
  rewrite !qmean_aff by exact N. set (um := qmean (map U col)). set (ym := qmean (map Y col)).
  rewrite (map_ext (fun b => (U' (g b) - (c * um + 0)) * (U' (g b) - (c * um + 0))) (fun b => (c * c) * ((U b - um) * (U b - um)))) by (intros b; rewrite HU; ring).
  rewrite (map_ext (fun b => (U' (g b) - (c * um + 0)) * (Y' (g b) - (s * ym + y0))) (fun b => (c * s) * ((U b - um) * (Y b - ym)))) by (intros b; rewrite HU, HY; ring).
  rewrite !qsum_map_scale. set (suu := qsum (map (fun b => (U b - um) * (U b - um)) col)). set (suy := qsum _). assert (c * c * 0 = 0) as Z0 by ring.
  assert (0 < c * c) as Hcc by qnra. rewrite <- Z0 at 1; rewrite qeq_scale by exact Hcc. destruct (qeq suu 0) eqn:E; [reflexivity|]. cbn [rmap rbind]. f_equal. field. split; [intros E0; rewrite E0 in E; vm_compute in E; discriminate|apply pos_ne, Hc].
Qed.
Definition slip_in_units (u : units) (v : sampled) : sampled :=
  match v with
  | Number (Fin m) (Some (Fin q)) => Number (Fin (u_len u * m)) (Some (Fin (u_len u * u_len u * q)))
  | _ => v
  end.
Lemma rmapM_rmap {A B C D} (F : A -> res B) (G : C -> res D) (h : A -> C) (k : B -> D) l : (forall x, In x l -> G (h x) = rmap k (F x)) -> rmapM G (map h l) = rmap (map k) (rmapM F l).
Proof.
  induction l as [|x l IH]; intros H; [reflexivity|]. cbn [map rmapM]. rewrite H by (left; reflexivity). rewrite IH by (intros y Hy; apply H; right; exact Hy).
  destruct (F x); [|reflexivity]. cbn [rmap rbind]. destruct (rmapM F l); reflexivity.
Qed.
Lemma slip_aff u data fi floor : units_ok u -> sample_slip_length (map (in_units u) data) (info_in_units u fi) (new_y u floor) = rmap (slip_in_units u) (sample_slip_length data fi floor).
Proof.
  intros Hu. unfold sample_slip_length. cbn [info_in_units f_shape]. destruct (f_shape fi) as [[nx ny]|]; [|reflexivity]. rewrite map_length. destruct (Nat.eqb (List.length data) (Z.to_nat nx * Z.to_nat ny)) eqn:E; [|reflexivity].
  cbn [negb]. apply Nat.eqb_eq in E. generalize dependent (Z.to_nat nx). generalize (Z.to_nat ny). clear nx ny. intros ny nx E.
  assert (columns (map (in_units u) data) nx ny = map (map (in_units u)) (columns data nx ny)) as ->.
  { unfold columns. rewrite map_map. apply map_ext_in. intros i Hi. apply in_seq in Hi. rewrite map_map. apply map_ext_in. intros j Hj. apply in_seq in Hj.
    change bin0 with (bin0). rewrite nth_in by nia. reflexivity. }
  rewrite (rmapM_rmap (fun c => do b <- intercept (map bU c) (map bY c); Ok (- (b - floor))) _ _ (fun v => u_len u * v)).
  2:{ intros c _. rewrite (intercept_aff bU bY bU bY (in_units u) (u_vel u) (u_len u) (u_y0 u)) by (first [exact (proj2 (proj2 (proj2 (proj2 Hu))))|reflexivity]).
      destruct (intercept _ _); [|reflexivity]. cbn [rmap rbind]. f_equal. unfold new_y. ring. }
  destruct (rmapM _ _) as [l|]; [|reflexivity]. cbn [rmap rbind]. destruct l as [|v l]; [reflexivity|]. set (m := v :: l). unfold mean_of, var_of. destruct (map (fun w => u_len u * w) m) eqn:Em; [discriminate|]. rewrite <- Em. clear Em.
  change (match m with [] => NaN | _ => Fin (qmean m) end) with (Fin (qmean m)). change (match m with [] => NaN | _ => Fin (variance m) end) with (Fin (variance m)). cbn [slip_in_units].
  assert (m <> []) as N by discriminate. clearbody m. clear v l. assert (forall a (l : list Qc), l <> [] -> qmean (map (fun w => a * w) l) = a * qmean l) as MS.
  { intros a k Hk. rewrite (map_ext (fun w => a * w) (fun w => a * w + 0)) by (intros; ring). rewrite (qmean_aff (fun w => w) a 0 k Hk), map_id. ring. }
  f_equal. f_equal; [f_equal; apply MS, N|]. do 2 f_equal. unfold variance. rewrite (MS _ _ N). rewrite map_map.
  rewrite <- (MS (u_len u * u_len u)) by (destruct m; [contradiction|discriminate]). f_equal. rewrite map_map. apply map_ext. intros w. ring.
Qed.

(** ** The properties *)
(** In other units of length, with another origin, and with the field in other units, the same cells form the interface;
    the search for the longest stretch knows the box along x, so its origin must stay. *)
Theorem C91_interface : forall u V W k v0 data fi o, units_ok u -> 0 < k -> (forall b, W (in_units u b) = k * V b + v0) -> (longest_opt o = true -> u_x0 u = 0) ->
  get_interface W (map (in_units u) data) (info_in_units u fi) (options_in_units u (fun c => k * c + v0) o) = get_interface V data fi o.
Proof. intros. apply interface_units; assumption. Qed.
Print Assumptions C91_interface.
(** The same cells are extracted at the contact lines. *)
Theorem C91_contact_line : forall u V W k v0 data fi o w h eh, units_ok u -> 0 < k -> (forall b, W (in_units u b) = k * V b + v0) -> (longest_opt o = true -> u_x0 u = 0) ->
  get_contact_line_cells W (map (in_units u) data) (info_in_units u fi) (options_in_units u (fun c => k * c + v0) o) (new_length u w, new_length u h) (new_length u eh) =
  rmap (fun p => (map (in_units u) (fst p), map (in_units u) (snd p))) (get_contact_line_cells V data fi o (w, h) eh).
Proof. intros. apply contact_units; assumption. Qed.
Print Assumptions C91_contact_line.
(** The angles are the same, also with a floor. *)
Theorem C91_contact_angle : forall u V W k v0 data fi o h floor, units_ok u -> 0 < k -> (forall b, W (in_units u b) = k * V b + v0) -> (longest_opt o = true -> u_x0 u = 0) ->
  get_contact_angle W (map (in_units u) data) (info_in_units u fi) (options_in_units u (fun c => k * c + v0) o) (new_length u h) (option_map (new_y u) floor) =
  get_contact_angle V data fi o h floor.
Proof. intros. eapply contact_angle_units; eassumption. Qed.
Print Assumptions C91_contact_angle.
(** The edges of the lowest layer are the same positions, in the new units. *)
Theorem C91_spreading_edges : forall u V W k v0 data fi cutoff radius nb longest, units_ok u -> 0 < k -> (forall b, W (in_units u b) = k * V b + v0) -> (longest = true -> u_x0 u = 0) ->
  get_spreading_edges W (map (in_units u) data) (info_in_units u fi) (option_map (fun c => k * c + v0) cutoff) (option_map (new_length u) radius) nb longest None =
  rmap (option_map (fun p => (new_x u (fst p), new_x u (snd p)))) (get_spreading_edges V data fi cutoff radius nb longest None).
Proof. intros. apply spreading_units; assumption. Qed.
Print Assumptions C91_spreading_edges.
(** The collected series: times are the same, radii and edges change unit, and the same frames are taken as the impact and as boundary crossings. *)
Theorem C91_collect : forall s frames dt t0 save impact, 0 < s ->
  collect (map (frame_in_units s) frames) dt t0 save impact = (let '(rows, lines, im) := collect frames dt t0 save impact in (map (row_in_units s) rows, map (line_in_units s) lines, im)).
Proof. intros. apply collect_scale. assumption. Qed.
Print Assumptions C91_collect.
(** The center of mass is the same place, and the slip length the same length (with its variance). *)
Theorem C91_center_of_mass : forall u data, units_ok u ->
  sample_center_of_mass (map (in_units u) data) = rmap (fun p => (new_x u (fst p), new_y u (snd p))) (sample_center_of_mass data).
Proof.
  intros u data Hu. unfold sample_center_of_mass. rewrite (average_aff bX bX bM bM (in_units u) (u_len u) (u_x0 u) (u_mass u)), (average_aff bY bY bM bM (in_units u) (u_len u) (u_y0 u) (u_mass u))
    by first [exact (proj1 (proj2 (proj2 (proj2 Hu))))|reflexivity].
  destruct (np_average (map bX data) _); [|reflexivity]. cbn [rmap rbind]. destruct (np_average _ _); reflexivity.
Qed.
Print Assumptions C91_center_of_mass.
Theorem C91_slip_length : forall u data fi floor, units_ok u ->
  sample_slip_length (map (in_units u) data) (info_in_units u fi) (new_y u floor) = rmap (slip_in_units u) (sample_slip_length data fi floor).
Proof. intros. apply slip_aff. assumption. Qed.
Print Assumptions C91_slip_length.
(** With a floor the layer is chosen by rounding the height up to whole units of length: the edges depend on the unit. *)
Definition pm : units := mkUnits (ZQ 1000) 0 (ZQ 50) 1 1 (Q2Qc (1 # 2)) (ZQ 1000).
Definition um (x y m : Z) : bin := mkBin (ZQ x) (ZQ y) 1 1 (ZQ m) 0 0.
Definition u_map : list bin := [um 0 0 6; um 1 0 8; um 2 0 8; um 3 0 6; um 0 1 0; um 1 1 8; um 2 1 6; um 3 1 0; um 0 2 0; um 1 2 0; um 2 2 0; um 3 2 0].
Definition u_info : finfo := mkFinfo (Some (4, 3)%Z) (Some (0, 0)) (Some (1, 1)) None.
Definition u_opts : iopts := mkIopts (Some (ZQ 4)) None 1 false (None, None).
Example C91_units : units_ok pm. Proof. repeat split; reflexivity. Qed.
Example C91_field : forall b, bM (in_units pm b) = Q2Qc (1 # 2) * bM b + 0. Proof. intros b. cbn [in_units bM]. change (u_mass pm) with (Q2Qc (1 # 2)). ring. Qed.
Example C91_interface_ex : get_interface bM u_map u_info u_opts = Ok [(0, 3); (5, 6)]%nat. Proof. vm_compute. reflexivity. Qed.
Example C91_angle_ex : contact_triangle bM u_map u_info u_opts (ZQ 2) None <> Ok None.
Proof. vm_compute. discriminate. Qed.
Definition u_flow : list bin := [mkBin 0 0 1 1 1 (ZQ 3) 0; mkBin 0 1 1 1 (ZQ 3) (ZQ 5) 0].
Example C91_slip_ex : match sample_slip_length u_flow (mkFinfo (Some (1, 2)%Z) None None None) 0 with Ok (Number (Fin v) _) => qeq v (Q2Qc (3 # 2)) | _ => false end = true.
Proof. vm_compute. reflexivity. Qed.
Example C91_center_ex : match sample_center_of_mass u_flow with Ok (x, y) => (qeq x 0 && qeq y (Q2Qc (3 # 4)))%bool | _ => false end = true. Proof. vm_compute. reflexivity. Qed.
Definition u_frames : list frame := [mkFrame "a"%string (ZQ 10) None; mkFrame "b"%string (ZQ 10) (Some (ZQ 4, ZQ 6)); mkFrame "c"%string (ZQ 10) (Some (ZQ 2, ZQ 8)); mkFrame "d"%string (ZQ 10) (Some (ZQ 1, ZQ 1)); mkFrame "e"%string (ZQ 10) (Some (ZQ 9, ZQ 2))].
Example C91_collect_ex : map (fun r => (this (r_left r), this (r_right r))) (fst (fst (collect u_frames 1 0 true false))) = [((4 # 1)%Q, (6 # 1)%Q); ((2 # 1)%Q, (8 # 1)%Q); ((1 # 1)%Q, (1 # 1)%Q); ((-1 # 1)%Q, (2 # 1)%Q)].
Proof. vm_compute. reflexivity. Qed.
Theorem C91_floor_refuted : exists u data fi floor l r l' r', units_ok u /\ u_x0 u = 0 /\ u_y0 u = 0 /\
  get_spreading_edges bM data fi (Some (ZQ 4)) None 1 false (Some floor) = Ok (Some (l, r)) /\
  get_spreading_edges bM (map (in_units u) data) (info_in_units u fi) (Some (ZQ 4)) None 1 false (Some (new_y u floor)) = Ok (Some (l', r')) /\
  l' <> new_x u l.
Proof.
  exists (mkUnits (ZQ 1000) 0 0 1 1 1 1), u_map, u_info, 0. do 4 eexists. split; [repeat split; reflexivity|]. do 2 (split; [reflexivity|]). split; [vm_compute; reflexivity|]. split; [vm_compute; reflexivity|].
  intros E. apply (f_equal (fun q => qeq q 0)) in E. vm_compute in E. discriminate.
Qed.
Print Assumptions C91_floor_refuted.
