(** Proofs about averaging files: one group and writing. *)
From Coq Require Import String Permutation.
From Verif.Base Require Import QcX Res Np ListX Sums Bytes.
From Verif.Model Require Import Bins Text Gmx Simple Formats Average.
From Verif.Model Require SimpleAverage.
From Verif.Model Require Import Utils.
From Verif.Spec Require Import FilesSpec DiskSpec MapSpec AverageSpec.
From Verif.Proofs Require Import UtilsFiles UtilsDisk UtilsTop TextP GmxP GmxRoundP SimpleP FormatsP SimpleAverageP RecentreP.
From Verif.Props Require Import GmxProps SimpleProps FormatsProps.
Local Open Scope list_scope.

(** ** Reading *)
Lemma finite_columns m : finite_dict (as_columns m) = Ok (dict_of_bins m).
Proof.
  assert (forall f : bin -> Qc, rmapM finite (map (fun b => Fin (f b)) m) = Ok (map f m)) as E.
  { intros f. replace (map (fun b => Fin (f b)) m) with (map Fin (map f m)) by apply map_map. apply rmapM_finite. }
  unfold finite_dict, as_columns. cbn [rmapM fst snd]. rewrite !E. reflexivity.
Qed.
Lemma bins_columns m : bins_of_dict (dict_of_bins m) = Ok m.
Proof.
  unfold bins_of_dict, key, dict_of_bins. cbn [get String.eqb Ascii.eqb Bool.eqb of_option rbind]. rewrite !map_length.
  cbn [forallb]. rewrite !map_length, Nat.eqb_refl. cbn [andb]. apply f_equal.
  apply nth_ext with bin0 bin0; [rewrite map_length, seq_length; reflexivity|]. intros p Hp. rewrite map_length, seq_length in Hp.
  match goal with |- nth p (map ?f _) _ = _ => rewrite (nth_indep _ bin0 (f 0%nat)) by (rewrite map_length, seq_length; exact Hp); rewrite (map_nth f) end.
  rewrite seq_nth by exact Hp. cbn [Nat.add].
  assert (forall f : bin -> Qc, nth p (map f m) 0 = f (nth p m bin0)) as E.
  { intros f. rewrite (nth_indep _ 0 (f bin0)) by (rewrite map_length; exact Hp). apply map_nth. }
  rewrite !E. destruct (nth p m bin0). reflexivity.
Qed.
(** What is left of a map after cutting. *)
Definition cut_to (o : aopts) (m m' : list bin) : Prop := (if limited o then cut_system (a_xlim o) (a_ylim o) m else Ok m) = Ok m'.
Lemma read_group_cut fuel o files maps (cut : list bin -> list bin) nx ny x0 y0 dx dy md : (forall m, In m maps -> cut_to o m (cut m)) ->
  Forall2 (fun f m => map_file fuel f nx ny x0 y0 dx dy m /\ guess_read_module (Some f) = md) files maps ->
  read_group fuel o (map Some files) = Ok (map (fun m => (cut m, mkWinfo (Z.of_nat nx, Z.of_nat ny) (dx, dy) (Some (x0, y0)), md)) maps).
Proof.
  intros HL H. unfold read_group.
  match goal with |- rmapM ?F _ = _ => set (g := F) end.
  assert (forall f m, In m maps -> map_file fuel f nx ny x0 y0 dx dy m /\ guess_read_module (Some f) = md -> g (Some f) = Ok (cut m, mkWinfo (Z.of_nat nx, Z.of_nat ny) (dx, dy) (Some (x0, y0)), md)) as E.
  { intros f m Hm [[R L] G]. unfold g. rewrite R. cbn [rbind]. rewrite finite_columns. cbn [rbind]. unfold finite_info. cbn [m_spacing m_shape m_origin fst snd finite rbind]. rewrite bins_columns. cbn [rbind].
    pose proof (HL m Hm) as C. unfold cut_to in C. rewrite C. cbn [rbind g_shape g_spacing g_origin]. rewrite G. reflexivity. }
  clearbody g. clear HL. induction H as [|f m files maps HM _ IH]; [reflexivity|]. cbn [map rmapM]. rewrite (E f m (or_introl eq_refl) HM). cbn [rbind]. rewrite IH; [reflexivity|]. intros f' m' Hm'. apply E. right. exact Hm'.
Qed.

(** ** Positions *)
Lemma map_file_grid fuel f nx ny x0 y0 dx dy m : map_file fuel f nx ny x0 y0 dx dy m ->
  let h := match guess_read_module (Some f) with GmxModule => Q2Qc (1 # 2) | SimpleModule => 0 end in
  column_grid m nx ny (x0 + h * dx) (y0 + h * dy) dx dy.
Proof.
  intros [R L] h. split; [exact L|]. intros i j Hi Hj b.
  assert (forall (g : bin -> Qc) (F : nat -> nat -> Qc), map (fun b => Fin (g b)) m = grid nx ny (fun a c => Fin (F a c)) -> g b = F i j) as K.
  { intros g F E. assert (i * ny + j < length m)%nat as Hp by (rewrite L; nia).
    assert (nth (i * ny + j) (map (fun b => Fin (g b)) m) NaN = Fin (g b)) as E1.
    { rewrite (nth_indep _ NaN (Fin (g bin0))) by (rewrite map_length; exact Hp). apply (map_nth (fun b => Fin (g b))). }
    rewrite E, grid_nth in E1 by assumption. injection E1. auto. }
  unfold read_data_file in R. unfold h. destruct (guess_read_module (Some f)) eqn:G.
  - destruct (gmx_read fuel f) as [[out i']|] eqn:E; [|discriminate]. cbn [rbind] in R. injection R as -> E1 E2 E3 E4 E5.
    pose proof (gmx_read_facts _ _ _ _ E) as (_ & GX & GY & _). rewrite E1, E2, E3, E5 in GX. rewrite E1, E2, E4, E5 in GY. cbn [fst snd] in GX, GY.
    cbn in GX, GY. injection GX as GX. injection GY as GY. rewrite (K bX (fun a _ => x0 + dx * (NQ a + Q2Qc (1 # 2))) GX), (K bY (fun _ a => y0 + dy * (NQ a + Q2Qc (1 # 2))) GY).
    split; ring.
  - pose proof (simple_read_positions _ _ _ R) as GP. cbn [m_shape m_origin m_spacing fst snd along] in GP. destruct GP as [GX GY].
    cbn in GX, GY. injection GX as GX. injection GY as GY. rewrite (K bX (fun a _ => x0 + dx * NQ a) GX), (K bY (fun _ a => y0 + dy * NQ a) GY). split; ring.
Qed.
Lemma grid_same_coords a b nx ny x0 y0 dx dy : column_grid a nx ny x0 y0 dx dy -> column_grid b nx ny x0 y0 dx dy -> same_coords a b.
Proof.
  intros [La Pa] [Lb Pb]. unfold same_coords. apply Forall2_nth. split; [congruence|]. intros p u v Hu Hv.
  assert (p < nx * ny)%nat as Hp by (rewrite <- La; apply nth_error_Some; congruence). assert (ny <> 0)%nat as Hn by nia.
  assert (p = p / ny * ny + p mod ny)%nat as E by (rewrite Nat.mul_comm; apply Nat.div_mod; exact Hn).
  assert (p / ny < nx)%nat as H1 by (apply Nat.div_lt_upper_bound; [exact Hn|lia]). pose proof (Nat.mod_upper_bound p ny Hn) as H2.
  specialize (Pa _ _ H1 H2). specialize (Pb _ _ H1 H2). cbv zeta in Pa, Pb. rewrite <- E in Pa, Pb. rewrite (nth_error_nth _ _ _ Hu) in Pa. rewrite (nth_error_nth _ _ _ Hv) in Pb.
  destruct Pa, Pb. split; congruence.
Qed.
Lemma coords_grid a b nx ny x0 y0 dx dy : column_grid a nx ny x0 y0 dx dy -> same_coords a b -> column_grid b nx ny x0 y0 dx dy.
Proof.
  intros [La Pa] H. pose proof (Forall2_length H) as L. split; [congruence|]. intros i j Hi Hj.
  assert (i * ny + j < length a)%nat as Hp by (rewrite La; nia). unfold same_coords in H. apply Forall2_nth in H. destruct H as [_ H].
  destruct (nth_error a (i * ny + j)) as [u|] eqn:Eu; [|apply nth_error_None in Eu; lia]. destruct (nth_error b (i * ny + j)) as [v|] eqn:Ev; [|apply nth_error_None in Ev; lia].
  specialize (Pa i j Hi Hj). cbv zeta in *. rewrite (nth_error_nth _ _ _ Eu) in Pa. rewrite (nth_error_nth _ _ _ Ev). destruct (H _ _ _ Eu Ev), Pa. split; congruence.
Qed.

(** ** Averages *)
Lemma average_maps data nx ny x0 y0 dx dy z : data <> [] -> (forall m, In m data -> column_grid m nx ny x0 y0 dx dy /\ weights_nonneg m /\ values_within z m) -> 0 <= z ->
  exists avg, SimpleAverage.average_data SimpleAverage.atol_default SimpleAverage.rtol_default data = Ok (Some avg) /\ column_grid avg nx ny x0 y0 dx dy /\ values_within z avg /\
    forall p, (p < nx * ny)%nat -> averages (map (fun m => nth p m bin0) data) (nth p avg bin0).
Proof.
  intros Hne H Hz. set (c0 := hd [] data).
  assert (In c0 data) as Hc0 by (destruct data; [congruence|left; reflexivity]).
  destruct (average_same_coords_ok SimpleAverage.atol_default SimpleAverage.rtol_default data c0) as (avg & E & SC); [intros K; discriminate K|intros K; discriminate K|exact Hne|intros m Hm; eapply grid_same_coords; [apply H; exact Hc0|apply H; exact Hm]|].
  assert (nonneg_maps data) as NN by (intros m Hm; apply H; exact Hm).
  pose proof (coords_grid _ _ _ _ _ _ _ _ (proj1 (H c0 Hc0)) SC) as CG.
  assert (forall p, (p < nx * ny)%nat -> bins_at p data (map (fun m => nth p m bin0) data) /\ nth_error avg p = Some (nth p avg bin0)) as HB.
  { intros p Hp. destruct CG as [LA _]. split; [apply (bins_at_exists _ _ _ _ _ E); lia|apply nth_error_nth'; lia]. }
  exists avg. split; [exact E|]. split; [exact CG|]. split.
  - intros b Hb. apply (In_nth _ _ bin0) in Hb. destruct Hb as (p & Hp & <-). rewrite (proj1 CG) in Hp. destruct (HB p Hp) as [HB1 HB2].
    set (col := map (fun m => nth p m bin0) data) in *.
    assert (forall c, In c col -> exists m, In m data /\ In c m) as HC by (intros c Hc; apply (bins_at_in _ _ _ _ HB1 Hc)).
    assert (forall c, In c col -> qabs (bN c) <= z /\ qabs (bT c) <= z /\ qabs (bM c) <= z /\ qabs (bU c) <= z /\ qabs (bV c) <= z) as HV by (intros c Hc; destruct (HC c Hc) as (m & Hm & Hcm); apply (H m Hm); exact Hcm).
    assert (forall c, In c col -> 0 <= bM c /\ 0 <= bN c) as HW by (intros c Hc; destruct (HC c Hc) as (m & Hm & Hcm); apply (NN m Hm); exact Hcm).
    destruct (average_bounds _ _ _ _ _ _ _ (- z) z E NN HB2 HB1) as (B1 & B2 & B3 & B4 & B5 & B6 & B7).
    assert (forall f : bin -> Qc, (forall c, In c col -> 0 <= f c) -> total f col = 0 \/ 0 < total f col) as T.
    { intros f Hf. assert (0 <= total f col) as Ht by (unfold total; apply qsum_nonneg; intros y Hy; apply in_map_iff in Hy; destruct Hy as (c & <- & Hc); apply Hf; exact Hc).
      destruct (Qc_eq_dec (total f col) 0); [left; assumption|right]. apply Qcle_lt_or_eq in Ht. destruct Ht; [assumption|congruence]. }
    assert (- z <= 0 <= z) as Z0 by (clear -Hz; split; qlra').
    assert (qabs 0 <= z) as A0 by (change (qabs 0) with 0; exact Hz).
    repeat apply conj.
    + apply qabs_le, B2. intros c Hc. apply qabs_le. apply HV. exact Hc.
    + destruct (T bN) as [T0|T0]; [intros c Hc; apply HW; exact Hc| |]; [rewrite (B7 T0); exact A0|apply qabs_le, (B5 T0); intros c Hc _; apply qabs_le; apply HV; exact Hc].
    + apply qabs_le, B1. intros c Hc. apply qabs_le. apply HV. exact Hc.
    + destruct (T bM) as [T0|T0]; [intros c Hc; apply HW; exact Hc| |]; [rewrite (proj1 (B6 T0)); exact A0|apply qabs_le, (B3 T0); intros c Hc _; apply qabs_le; apply HV; exact Hc].
    + destruct (T bM) as [T0|T0]; [intros c Hc; apply HW; exact Hc| |]; [rewrite (proj2 (B6 T0)); exact A0|apply qabs_le, (B4 T0); intros c Hc _; apply qabs_le; apply HV; exact Hc].
  - intros p Hp. destruct (HB p Hp) as [HB1 HB2]. set (col := map (fun m => nth p m bin0) data) in *. set (b := nth p avg bin0) in *.
    assert (length col = length data) as LC by apply map_length.
    pose proof (average_conserves _ _ _ _ _ _ _ E NN HB2 HB1) as (C1 & C2 & C3 & C4 & C5). cbv zeta in *.
    destruct (average_bounds _ _ _ _ _ _ _ (- z) z E NN HB2 HB1) as (_ & _ & _ & _ & _ & B6 & B7).
    unfold averages. rewrite LC. split; [exact C1|]. split; [exact C2|]. rewrite <- C1, <- C2, <- C3, <- C4, <- C5. split; [ring|]. split; [ring|]. split; [ring|]. rewrite C1, C2. split; assumption.
Qed.

(** ** Writing *)
Definition field (l : string) : bin -> Qc :=
  if String.eqb l "N" then bN else if String.eqb l "T" then bT else if String.eqb l "M" then bM else if String.eqb l "U" then bU else bV.
Definition num (v : ext) : Qc := match v with Fin x => x | _ => 0 end.
Lemma nth_field (f : bin -> Qc) m p : (p < length m)%nat -> nth p (map f m) 0 = f (nth p m bin0).
Proof. intros Hp. rewrite (nth_indep _ 0 (f bin0)) by (rewrite map_length; exact Hp). apply map_nth. Qed.
Lemma map_seq_id {A} (l : list A) d : map (fun p => nth p l d) (seq 0 (length l)) = l.
Proof.
  apply nth_ext with d d; [rewrite map_length, seq_length; reflexivity|]. intros p Hp. rewrite map_length, seq_length in Hp.
  rewrite (nth_indep _ d (nth 0 l d)) by (rewrite map_length, seq_length; exact Hp). rewrite (map_nth (fun p => nth p l d)), seq_nth by exact Hp. reflexivity.
Qed.
Lemma storable_bins b nx ny x0 y0 dx dy : length b = (nx * ny)%nat -> values_within single_max b -> (Z.of_nat nx < 2 ^ 64)%Z -> (Z.of_nat ny < 2 ^ 64)%Z ->
  storable (dict_of_bins b) (mkGinfo (Z.of_nat nx, Z.of_nat ny) (dx, dy) (x0, y0)) nx ny (fun l => map (field l) b).
Proof.
  intros L HV Hx Hy. split; [reflexivity|]. split; [exact Hx|]. split; [exact Hy|]. intros l Hl. split; [|split].
  - cbn in Hl. repeat (destruct Hl as [<-|Hl]; [reflexivity|]). destruct Hl.
  - rewrite map_length. exact L.
  - intros v Hv. apply in_map_iff in Hv. destruct Hv as (c & <- & Hc). destruct (HV c Hc) as (V1 & V2 & V3 & V4 & V5). cbn in Hl. repeat (destruct Hl as [<-|Hl]; [assumption|]). destruct Hl.
Qed.
Lemma store_map b nx ny x0 y0 dx dy : length b = (nx * ny)%nat -> values_within single_max b -> (Z.of_nat nx < 2 ^ 64)%Z -> (Z.of_nat ny < 2 ^ 64)%Z ->
  six_decimal_number x0 -> six_decimal_number y0 -> six_decimal_number dx -> six_decimal_number dy ->
  (29 <= filled (map bM b) \/ filled (map bM b) = 0)%nat ->
  exists file, gmx_write (dict_of_bins b) (mkGinfo (Z.of_nat nx, Z.of_nat ny) (dx, dy) (x0, y0)) = Ok file /\ guess_read_module (Some file) = GmxModule /\
    forall fuel, (length file < fuel)%nat -> exists m, map_file fuel file nx ny x0 y0 dx dy m /\
      forall p, (p < nx * ny)%nat -> held_as as_single (nth p b bin0) (nth p m bin0).
Proof.
  intros L HV Hx Hy [n1 E1] [n2 E2] [n3 E3] [n4 E4] HF. set (i := mkGinfo (Z.of_nat nx, Z.of_nat ny) (dx, dy) (x0, y0)).
  pose proof (storable_bins b nx ny x0 y0 dx dy L HV Hx Hy) as HS. fold i in HS.
  destruct (C46_files_read_back_partial _ _ _ _ _ HS HF) as (f & W & R). exists f. split; [exact W|]. pose proof (C50_gmx_files_recognised _ _ _ W) as HG. split; [exact HG|].
  intros fuel Hf. destruct (R fuel Hf) as (out & i' & R' & RB). destruct RB as (RK & Rs & [_ D1] & [_ D2] & [_ O1] & [_ O2] & RP & RV). cbn [i g_shape g_spacing g_origin fst snd] in *.
  specialize (D1 _ E3). specialize (D2 _ E4). specialize (O1 _ E1). specialize (O2 _ E2).
  destruct RP as (X & Y & GX & GY & LX & LY & PP).
  assert (forall l, In l ["N"; "T"; "M"; "U"; "V"]%string -> exists r, get out l = Some r /\ length r = (nx * ny)%nat /\ forall p, (p < nx * ny)%nat -> nth p r NaN = Fin (num (nth p r NaN)) /\
    (bM (nth p b bin0) = 0 -> num (nth p r NaN) = 0) /\ (bM (nth p b bin0) <> 0 -> as_single (field l (nth p b bin0)) (num (nth p r NaN)))) as RV'.
  { intros l Hl. destruct (RV l Hl) as (r & Gr & Lr & Vr). exists r. split; [exact Gr|]. split; [exact Lr|]. intros p Hp. destruct (Vr p Hp) as [A B]. change (field "M") with bM in A, B.
    rewrite (nth_field bM) in A, B by lia. rewrite (nth_field (field l)) in B by lia.
    destruct (Qc_eq_dec (bM (nth p b bin0)) 0) as [E0|N0]; [rewrite (A E0); split; [reflexivity|]; split; [reflexivity|contradiction]|].
    destruct (B N0) as (y & Y1 & Y2 & _ & Y3). rewrite Y1. split; [reflexivity|]. split; [contradiction|]. intros _. split; assumption. }
  destruct (RV' "N"%string ltac:(cbn; tauto)) as (rN & GN & LN & VN). destruct (RV' "T"%string ltac:(cbn; tauto)) as (rT & GT & LT & VT).
  destruct (RV' "M"%string ltac:(cbn; tauto)) as (rM & GM & LM & VM). destruct (RV' "U"%string ltac:(cbn; tauto)) as (rU & GU & LU & VU). destruct (RV' "V"%string ltac:(cbn; tauto)) as (rV & GV & LV & VV).
  set (mk := fun p => mkBin (num (nth p X NaN)) (num (nth p Y NaN)) (num (nth p rN NaN)) (num (nth p rT NaN)) (num (nth p rM NaN)) (num (nth p rU NaN)) (num (nth p rV NaN))).
  exists (map mk (seq 0 (nx * ny))). split.
  - split; [|rewrite map_length, seq_length; reflexivity].
    assert (forall (g : bin -> Qc) r, length r = (nx * ny)%nat -> (forall p, (p < nx * ny)%nat -> nth p r NaN = Fin (g (mk p))) -> map (fun c => Fin (g c)) (map mk (seq 0 (nx * ny))) = r) as E.
    { intros g r Lr Hr. rewrite map_map. transitivity (map (fun p => nth p r NaN) (seq 0 (nx * ny))); [apply map_ext_in; intros p Hp; apply in_seq in Hp; symmetry; apply Hr; lia|]. rewrite <- Lr. apply map_seq_id. }
    assert (forall p, (p < nx * ny)%nat -> nth p X NaN = Fin (num (nth p X NaN)) /\ nth p Y NaN = Fin (num (nth p Y NaN))) as EXY.
    { intros p Hp. assert (ny <> 0)%nat as Hn by nia. assert (p = p / ny * ny + p mod ny)%nat as Ep by (rewrite Nat.mul_comm; apply Nat.div_mod; exact Hn).
      assert (p / ny < nx)%nat as H1 by (apply Nat.div_lt_upper_bound; [exact Hn|lia]). pose proof (Nat.mod_upper_bound p ny Hn) as H2.
      destruct (PP _ _ H1 H2) as [P1 P2]. rewrite <- Ep in P1, P2. rewrite P1, P2. split; reflexivity. }
    unfold as_columns. rewrite (E bX X LX), (E bY Y LY), (E bN rN LN), (E bT rT LT), (E bM rM LM), (E bU rU LU), (E bV rV LV); try (intros p Hp; first [apply EXY; exact Hp|apply VN; exact Hp|apply VT; exact Hp|apply VM; exact Hp|apply VU; exact Hp|apply VV; exact Hp]).
    unfold read_data_file. rewrite HG, R'. cbn [rbind]. rewrite Rs. cbn [fst snd]. rewrite !Nat2Z.id, D1, D2.
    assert (g_origin i' = (x0, y0)) as -> by (rewrite <- O1, <- O2; destruct (g_origin i'); reflexivity). do 2 f_equal.
    do 7 (destruct out as [|[? ?] out]; [discriminate|]). destruct out; [|discriminate]. cbn [map fst] in RK. injection RK. intros; subst.
    cbn in GX, GY, GN, GT, GM, GU, GV. injection GX as ->. injection GY as ->. injection GN as ->. injection GT as ->. injection GM as ->. injection GU as ->. injection GV as ->. reflexivity.
  - intros p Hp. assert (nth p (map mk (seq 0 (nx * ny))) bin0 = mk p) as ->.
    { rewrite (nth_indep _ bin0 (mk 0%nat)) by (rewrite map_length, seq_length; exact Hp). rewrite map_nth, seq_nth by exact Hp. reflexivity. }
    destruct (VN p Hp) as (_ & N0 & N1). destruct (VT p Hp) as (_ & T0 & T1). destruct (VM p Hp) as (_ & M0 & M1). destruct (VU p Hp) as (_ & U0 & U1). destruct (VV p Hp) as (_ & V0 & V1).
    split; intros H; cbn [mk bN bT bM bU bV]; auto 10.
Qed.
Lemma write_map_ok d p b i o file : wf d -> w_origin i = Some o -> gmx_write (dict_of_bins b) (mkGinfo (w_shape i) (w_spacing i) o) = Ok file ->
  exists d', write_map d p b i = (d', None) /\ do_call d (p, [string_of file]) = Ok d'.
Proof.
  intros Hw Ho W. destruct (do_call_spec d p [string_of file] Hw) as (d' & E & _). exists d'. split; [|exact E].
  unfold do_call, write_ops in E. cbn [fst snd] in E. unfold write_map. destruct (prepare_ops d p) as [pre|]; [|discriminate]. cbn [rbind map] in E. rewrite Ho, W. injection E as <-.
  unfold exec_ops. rewrite fold_left_app. reflexivity.
Qed.
(** *** All groups *)
Lemma run_groups fuel o : forall groups d, wf d -> NoDup (map (fun g => os_path (snd g)) groups) ->
  ForallOrdPairs (fun a b => forall s, In s (fst b) -> os_path (snd a) <> os_path s) groups ->
  (forall g s, In g groups -> In s (fst g) -> exists_path d (os_path s) = true) ->
  (forall g, In g groups -> exists b i og file, average_group fuel o (map (Average.content d) (fst g)) = Ok (b, i) /\ w_origin i = Some og /\ gmx_write (dict_of_bins b) (mkGinfo (w_shape i) (w_spacing i) og) = Ok file) ->
  exists d', Average.average_groups fuel o d groups = (d', None) /\ wf d' /\
    (forall g, In g groups -> exists b i og file, average_group fuel o (map (Average.content d) (fst g)) = Ok (b, i) /\ w_origin i = Some og /\ gmx_write (dict_of_bins b) (mkGinfo (w_shape i) (w_spacing i) og) = Ok file /\ lookup (files d') (os_path (snd g)) = Some (string_of file)) /\
    (forall q, exists_path d q = true -> ~ In q (map (fun g => os_path (snd g)) groups) -> lookup (files d') q = lookup (files d) q) /\
    exists written, length written = length groups /\ Permutation (contents d') (contents d ++ written).
Proof.
  induction groups as [|[names out] groups IH]; intros d Hw Hnd Hord Hin Hok.
  - exists d. split; [reflexivity|]. split; [exact Hw|]. split; [intros ? []|]. split; [auto|]. exists []. split; [reflexivity|]. rewrite app_nil_r. reflexivity.
  - cbn [Average.average_groups map snd] in *. inversion Hnd as [|? ? Hfo Hnd']; subst. inversion Hord as [|? ? Hlater Hord']; subst. rewrite Forall_forall in Hlater.
    destruct (Hok (names, out) (or_introl eq_refl)) as (b & i & og & file & A & O & W). cbn [fst] in A. rewrite A.
    destruct (write_map_ok d (os_path out) b i og file Hw O W) as (d1 & E1 & C1). rewrite E1.
    destruct (do_call_spec d (os_path out) [string_of file] Hw) as (d1' & E2 & Hw1 & P1 & L1 & F1). rewrite C1 in E2. injection E2 as <-.
    assert (forall g s, In g groups -> In s (fst g) -> Average.content d1 s = Average.content d s /\ exists_path d1 (os_path s) = true) as SC.
    { intros g s Hg Hs. assert (lookup (files d1) (os_path s) = lookup (files d) (os_path s)) as EL.
      { apply F1; [|apply (Hin g s); [right; exact Hg|exact Hs]]. intros K. apply (Hlater g Hg s Hs). cbn [snd]. congruence. }
      split; [unfold Average.content; rewrite EL; reflexivity|]. specialize (Hin g s (or_intror Hg) Hs). unfold exists_path in *. rewrite EL. exact Hin. }
    assert (forall g, In g groups -> map (Average.content d1) (fst g) = map (Average.content d) (fst g)) as SM by (intros g Hg; apply map_ext_in; intros s Hs; apply (SC g s Hg Hs)).
    destruct (IH d1 Hw1 Hnd' Hord') as (d' & E & Hw' & R & F & W2 & LW & PW).
    { intros g s Hg Hs. apply (SC g s Hg Hs). }
    { intros g Hg. rewrite (SM g Hg). apply Hok. right. exact Hg. }
    exists d'. split; [exact E|]. split; [exact Hw'|]. split; [|split].
    + intros g [<-|Hg].
      * exists b, i, og, file. cbn [fst snd]. split; [exact A|]. split; [exact O|]. split; [exact W|]. rewrite F; [rewrite L1; reflexivity|unfold exists_path; rewrite L1; reflexivity|exact Hfo].
      * rewrite <- (SM g Hg). apply R. exact Hg.
    + intros q Hq Nq. cbn [In] in Nq. assert (lookup (files d1) q = lookup (files d) q) as EL by (apply F1; [intros ->; apply Nq; left; reflexivity|exact Hq]).
      rewrite F; [exact EL|unfold exists_path in *; rewrite EL; exact Hq|intros K; apply Nq; right; exact K].
    + exists (string_of file :: W2). split; [cbn [length]; rewrite LW; reflexivity|]. etransitivity; [exact PW|]. rewrite P1, <- app_assoc. reflexivity.
Qed.
(** *** Which groups *)
Lemma ceil_div_ok b M : (0 < M)%nat -> (Z.of_nat M * (ceil_div b (Z.of_nat M) - 1) < b <= Z.of_nat M * ceil_div b (Z.of_nat M))%Z.
Proof. intros H. apply ceil_div_spec. lia. Qed.
Lemma groups_run fs base output (M : nat) rolling o n : (0 < M)%nat ->
  let begin := match o_begin o with Some b => b | None => 1%Z end in
  let e := match o_end o with Some e => e | None => Inf end in
  let ext := match o_ext o with Some x => x | None => ".dat"%string end in
  let outext := match o_outext o with Some x => x | None => ext end in
  run_length (good fs base e ext) begin n ->
  exists out0, (forall i, bundle_output begin M rolling i (out0 + Z.of_nat i)) /\
  forall fuel, (n + 1 < fuel)%nat ->
  find_groups_to_singles fuel fs base output (Z.of_nat M) rolling o =
  Ok (map (fun i => (map (fun k => fname base k ext) (numbers (bundle_start begin M rolling i) M), fname output (out0 + Z.of_nat i) outext)) (seq 0 (bundles n M rolling))).
Proof.
  intros HM begin e ext outext Hr.
  assert (exists out0, (if rolling then Ok begin else if (Z.of_nat M =? 0)%Z then Err ZeroDivErr else Ok (ceil_div begin (Z.of_nat M))) = Ok out0 /\ forall i, bundle_output begin M rolling i (out0 + Z.of_nat i)) as (out0 & E0 & H0).
  { destruct rolling; [exists begin; split; [reflexivity|]; intros i; reflexivity|]. exists (ceil_div begin (Z.of_nat M)). split; [replace (Z.of_nat M =? 0)%Z with false by lia; reflexivity|].
    intros i. unfold bundle_output, bundle_start. cbv zeta. rewrite Nat2Z.inj_mul. rewrite <- ceil_div_shift by lia. apply ceil_div_spec. lia. }
  exists out0. split; [exact H0|]. intros fuel Hf. unfold find_groups_to_singles, pop_fileopts. cbn [f_begin f_end f_ext f_outext].
  change (dflt 1%Z (o_begin o)) with begin. change (dflt Inf (o_end o)) with e. change (dflt ".dat"%string (o_ext o)) with ext. change (dflt ext (o_outext o)) with outext.
  rewrite E0. cbn [rbind]. unfold find_datamap_groups.
  set (cnt := bundles n M rolling). set (step := if rolling then 1%nat else M).
  assert ((forall i, (i < cnt)%nat -> (i * step + M <= n)%nat) /\ (n < cnt * step + M)%nat /\ (cnt <= n)%nat) as (H1 & H2 & H3).
  { unfold cnt, step, bundles. destruct rolling; [split; [intros; lia|split; lia]|]. destruct (groups_count_plain M n HM) as [G1 G2]. split; [exact G1|]. split; [exact G2|]. apply Nat.div_le_upper_bound; nia. }
  pose proof (yield_groups_run fs base e ext M rolling cnt HM begin n fuel Hr) as Y. cbv zeta in Y. fold step in Y. rewrite Y by (auto; lia). cbn [rbind].
  rewrite zip_next_ok by reflexivity. apply f_equal. rewrite map_length, seq_length.
  assert (forall a c, combine (map (fun k => map (fun k0 => fname base k0 ext) (numbers (begin + Z.of_nat (k * step)) M)) (seq a c)) (map (fun k => fname output k outext) (numbers (out0 + Z.of_nat a) c)) =
     map (fun i => (map (fun k => fname base k ext) (numbers (bundle_start begin M rolling i) M), fname output (out0 + Z.of_nat i) outext)) (seq a c)) as E.
  { intros a c. revert a. induction c as [|c IH]; intros a; [reflexivity|]. cbn [seq numbers map combine]. apply (f_equal2 cons).
    - unfold bundle_start, step. destruct rolling; [rewrite Nat.mul_1_r|]; reflexivity.
    - rewrite <- IH. replace (out0 + Z.of_nat a + 1)%Z with (out0 + Z.of_nat (S a))%Z by lia. reflexivity. }
  specialize (E 0%nat cnt). cbn [Z.of_nat] in E. rewrite Z.add_0_r in E. exact E.
Qed.

(** *** One group of frames *)
Lemma group_maps_all fuel o files maps cut nx ny x0 y0 dx dy md : maps <> [] -> (forall m, In m maps -> cut_to o m (cut m)) ->
  Forall2 (fun f m => map_file fuel f nx ny x0 y0 dx dy m /\ guess_read_module (Some f) = md) files maps ->
  average_group fuel o (map Some files) =
    do (data, info) <- (if String.eqb (a_recenter o) "" then Ok (map cut maps, mkWinfo (Z.of_nat nx, Z.of_nat ny) (dx, dy) (Some (x0, y0)))
                        else do values <- rmapM (recenter_value o) (map cut maps); recenter_maps (map cut maps) values);
    do avg <- SimpleAverage.average_data SimpleAverage.atol_default SimpleAverage.rtol_default data;
    do avg <- of_option RuntimeErr avg;
    do avg <- match a_combine o with None => Ok avg | Some (cx, cy) => do c <- SimpleAverage.combine_bins avg (bins_info info) cx cy; Ok (fst c) end;
    match a_super o with
    | None => Ok (avg, info)
    | Some n =>
      do f <- Resample.supersample (Some n) super_weights (Sample.flow_of avg (Flow.mkFinfo (Some (w_shape info)) None (Some (w_spacing info)) None));
      Ok (map Sample.bin_of (Flow.rows (Flow.data f)), mkWinfo (w_shape info) (w_spacing info) None)
    end.
Proof.
  intros Hne HL H. unfold average_group. rewrite (read_group_cut _ _ _ _ cut _ _ _ _ _ _ md HL H). cbn [rbind].
  destruct maps as [|m0 maps0] eqn:E; [congruence|]. assert (maps <> []) as Hne' by congruence.
  set (W := mkWinfo (Z.of_nat nx, Z.of_nat ny) (dx, dy) (Some (x0, y0))).
  change (map (fun m => (cut m, W, md)) (m0 :: maps0)) with ((cut m0, W, md) :: map (fun m => (cut m, W, md)) maps0). cbv iota beta.
  change ((cut m0, W, md) :: map (fun m => (cut m, W, md)) maps0) with (map (fun m => (cut m, W, md)) (m0 :: maps0)). rewrite <- E.
  assert (forallb (fun m => module_eqb (snd m) md) (map (fun m => (cut m, W, md)) maps) = true) as ->.
  { apply forallb_forall. intros q Hq. apply in_map_iff in Hq. destruct Hq as (m & <- & _). cbn [snd]. destruct md; reflexivity. }
  cbn [negb]. cbv zeta. rewrite map_map. cbn [fst]. rewrite (last_map (fun m => (cut m, W, md)) maps _ [] Hne'). cbn [fst snd]. reflexivity.
Qed.
Lemma group_maps fuel o files maps cut nx ny x0 y0 dx dy md : maps <> [] -> (forall m, In m maps -> cut_to o m (cut m)) -> a_super o = None ->
  Forall2 (fun f m => map_file fuel f nx ny x0 y0 dx dy m /\ guess_read_module (Some f) = md) files maps ->
  average_group fuel o (map Some files) =
    do (data, info) <- (if String.eqb (a_recenter o) "" then Ok (map cut maps, mkWinfo (Z.of_nat nx, Z.of_nat ny) (dx, dy) (Some (x0, y0)))
                        else do values <- rmapM (recenter_value o) (map cut maps); recenter_maps (map cut maps) values);
    do avg <- SimpleAverage.average_data SimpleAverage.atol_default SimpleAverage.rtol_default data;
    do avg <- of_option RuntimeErr avg;
    do avg <- match a_combine o with None => Ok avg | Some (cx, cy) => do c <- SimpleAverage.combine_bins avg (bins_info info) cx cy; Ok (fst c) end; Ok (avg, info).
Proof. intros Hne HL HS H. rewrite (group_maps_all _ _ _ _ cut _ _ _ _ _ _ md Hne HL H), HS. reflexivity. Qed.
Lemma filled_cells avg data size : length avg = size -> data <> [] -> (forall p, (p < size)%nat -> averages (map (fun m => nth p m bin0) data) (nth p avg bin0)) ->
  filled (map bM avg) = cells_with_mass size data.
Proof.
  intros L Hne HA. unfold filled, cells_with_mass.
  assert (map bM avg = map (fun p => bM (nth p avg bin0)) (seq 0 size)) as ->. { rewrite <- (map_map (fun p => nth p avg bin0) bM), <- L, map_seq_id. reflexivity. }
  assert (forall l, (forall p, In p l -> (p < size)%nat) -> length (filter (fun v => negb (qeq v 0)) (map (fun p => bM (nth p avg bin0)) l)) =
    length (filter (fun p => negb (qeq (total bM (map (fun m => nth p m bin0) data)) 0)) l)) as K.
  { induction l as [|p l IH]; intros Hl; [reflexivity|]. cbn [map filter]. destruct (HA p (Hl p (or_introl eq_refl))) as (E & _).
    assert (qeq (bM (nth p avg bin0)) 0 = qeq (total bM (map (fun m => nth p m bin0) data)) 0) as ->.
    { rewrite map_length in E. destruct (qeq_spec (bM (nth p avg bin0)) 0) as [E0|N0].
      - rewrite E0 in E. replace (0 * NQ (length data)) with 0 in E by ring. rewrite <- E. symmetry. apply qeq_refl.
      - symmetry. destruct (qeq_spec (total bM (map (fun m => nth p m bin0) data)) 0) as [E1|]; [|reflexivity]. exfalso. rewrite E1 in E.
        assert (NQ (length data) <> 0) by (apply NQ_nz; destruct data; [congruence|cbn; lia]). apply Qcmult_integral in E. tauto. }
    destruct (negb _); cbn [length]; rewrite IH by (intros; apply Hl; right; assumption); reflexivity. }
  apply K. intros p Hp. apply in_seq in Hp. lia.
Qed.
Lemma single_max_nonneg : 0 <= single_max.
Proof. apply qmult_nonneg; [intros K; vm_compute in K; discriminate K|apply qc_lt_le, pow2_pos]. Qed.
Lemma group_average fuel o files maps nx ny x0 y0 dx dy md : maps <> [] -> (forall m, In m maps -> cut_to o m m) -> a_combine o = None -> a_super o = None -> a_recenter o = ""%string ->
  Forall2 (fun f m => map_file fuel f nx ny x0 y0 dx dy m /\ guess_read_module (Some f) = md) files maps ->
  (forall m, In m maps -> weights_nonneg m /\ values_within single_max m) ->
  exists avg, average_group fuel o (map Some files) = Ok (avg, mkWinfo (Z.of_nat nx, Z.of_nat ny) (dx, dy) (Some (x0, y0))) /\
    length avg = (nx * ny)%nat /\ values_within single_max avg /\ forall p, (p < nx * ny)%nat -> averages (map (fun m => nth p m bin0) maps) (nth p avg bin0).
Proof.
  intros Hne HL HC HS HR H HW. rewrite (group_maps _ _ _ _ (fun m => m) _ _ _ _ _ _ md Hne HL HS H), HR, HC. cbn [String.eqb rbind]. rewrite map_id.
  set (h := match md with GmxModule => Q2Qc (1 # 2) | SimpleModule => 0 end).
  destruct (average_maps maps nx ny (x0 + h * dx) (y0 + h * dy) dx dy single_max Hne) as (avg & E & G & V & A).
  - intros m Hm. split; [|apply HW; exact Hm]. clear -H Hm. induction H as [|f m' files maps [HM HG] _ IH]; [destruct Hm|]. destruct Hm as [-> |Hm]; [|exact (IH Hm)].
    pose proof (map_file_grid _ _ _ _ _ _ _ _ _ HM) as K. cbv zeta in K. rewrite HG in K. exact K.
  - apply single_max_nonneg.
  - exists avg. rewrite E. cbn [rbind of_option]. split; [reflexivity|]. split; [apply G|]. split; assumption.
Qed.
Lemma group_recentred fuel o files maps cut nx ny x0 y0 dx dy md (r : list bin -> Qc) NX NY X0 Y0 : maps <> [] -> (forall m, In m maps -> cut_to o m (cut m)) -> a_combine o = None -> a_super o = None -> a_recenter o <> ""%string ->
  (2 <= NX)%nat -> (2 <= NY)%nat -> 0 < dx -> 0 < dy ->
  Forall2 (fun f m => map_file fuel f nx ny x0 y0 dx dy m /\ guess_read_module (Some f) = md) files maps ->
  (forall m, In m maps -> column_grid (cut m) NX NY X0 Y0 dx dy /\ weights_nonneg (cut m) /\ values_within single_max (cut m) /\ recenter_value o (cut m) = Ok (Some (r m))) ->
  let c m := cnum X0 dx (r m) in
  forall lo hi, is_min (map c maps) lo -> is_max (map c maps) hi ->
  if (hi - lo <? Z.of_nat NX)%Z then
    let w := Z.to_nat (Z.of_nat NX - (hi - lo)) in
    exists avg, average_group fuel o (map Some files) = Ok (avg, mkWinfo (Z.of_nat w, Z.of_nat NY) (dx, dy) (Some (X0 - ZQ lo * dx, Y0))) /\
    length avg = (w * NY)%nat /\ values_within single_max avg /\
    forall p, (p < w * NY)%nat -> averages (map (fun m => nth p (shifted (cut m) (c m) lo w NY) bin0) maps) (nth p avg bin0)
  else average_group fuel o (map Some files) = Err ValueErr.
Proof.
  intros Hne HL HC HS HR Hnx Hny Hdx Hdy H HW c lo hi Hlo Hhi.
  rewrite (group_maps _ _ _ _ cut _ _ _ _ _ _ md Hne HL HS H), HC. destruct (String.eqb_spec (a_recenter o) "") as [|_]; [contradiction|].
  assert (forall m, In m maps -> column_grid (cut m) NX NY X0 Y0 dx dy) as HG by (intros m Hm; apply HW; exact Hm).
  set (ps := map (fun m => (cut m, r m)) maps).
  assert (rmapM (recenter_value o) (map cut maps) = Ok (map (fun p => Some (snd p)) ps)) as ->.
  { unfold ps. rewrite map_map. cbn [snd]. apply rmapM_map_ok. intros m Hm. apply HW. exact Hm. }
  assert (map fst ps = map cut maps) as EF by (unfold ps; rewrite map_map; reflexivity).
  cbn [rbind].
  assert (map (fun p : list bin * Qc => cnum X0 dx (snd p)) ps = map c maps) as EC by (unfold ps; rewrite map_map; reflexivity).
  assert (ps <> []) as Hps by (unfold ps; destruct maps; [congruence|discriminate]).
  assert (forall p, In p ps -> column_grid (fst p) NX NY X0 Y0 dx dy) as HGp by (intros p Hp; apply in_map_iff in Hp; destruct Hp as (m & <- & Hm); apply HG; exact Hm).
  pose proof (recentre_ok NX NY X0 Y0 dx dy Hnx Hny Hdx Hdy ps lo hi Hps HGp) as ER. rewrite EC, EF in ER. specialize (ER Hlo Hhi). rewrite ER. clear ER.
  destruct (Z.ltb_spec (hi - lo) (Z.of_nat NX)) as [Hw|Hw]; [|reflexivity]. cbv zeta. cbn [rbind].
  set (w := Z.to_nat (Z.of_nat NX - (hi - lo))).
  assert (map (fun p => moved NY X0 dx (fst p) (cnum X0 dx (snd p)) lo w) ps = map (fun m => moved NY X0 dx (cut m) (c m) lo w) maps) as -> by (unfold ps; rewrite map_map; reflexivity).
  set (mv := fun m => moved NY X0 dx (cut m) (c m) lo w).
  assert (forall m, In m maps -> (lo <= c m <= hi)%Z) as HB by (intros m Hm; split; [apply (proj2 Hlo)|apply (proj2 Hhi)]; apply in_map; exact Hm).
  assert (forall m, In m maps -> column_grid (mv m) w NY (X0 - ZQ lo * dx) Y0 dx dy /\
    forall p, (p < w * NY)%nat -> same_fields (nth p (mv m) bin0) (nth p (shifted (cut m) (c m) lo w NY) bin0)) as HMv.
  { intros m Hm. pose proof (HB m Hm) as B. destruct (moved_grid NX NY X0 Y0 dx dy Hnx Hny (cut m) (c m) lo w) as [G1 G2]; [apply HG; exact Hm|lia|lia|]. split; [exact G1|].
    intros p Hp. assert (NY <> 0)%nat as Hn by lia. assert (p = p / NY * NY + p mod NY)%nat as Ep by (rewrite Nat.mul_comm; apply Nat.div_mod; exact Hn).
    assert (p / NY < w)%nat as H1 by (apply Nat.div_lt_upper_bound; [exact Hn|lia]). pose proof (Nat.mod_upper_bound p NY Hn) as H2.
    specialize (G2 _ _ H1 H2). rewrite Ep. unfold shifted. rewrite grid_nth by assumption. exact G2. }
  assert (forall m b, In m maps -> In b (mv m) -> exists b', In b' (cut m) /\ same_fields b b') as HIn.
  { intros m b Hm Hb. unfold mv, moved in Hb. apply in_grid in Hb. destruct Hb as (i & j & Hi & Hj & ->). eexists. split; [apply nth_In|repeat split; reflexivity].
    rewrite (proj1 (HG m Hm)). pose proof (HB m Hm). assert (Z.to_nat (c m - lo) + i < NX)%nat by lia. nia. }
  destruct (average_maps (map mv maps) w NY (X0 - ZQ lo * dx) Y0 dx dy single_max) as (avg & E & G & V & A).
  - destruct maps; [congruence|discriminate].
  - intros m' Hm'. apply in_map_iff in Hm'. destruct Hm' as (m & <- & Hm). split; [apply HMv; exact Hm|]. split.
    + intros b Hb. destruct (HIn m b Hm Hb) as (b' & Hb' & F1 & F2 & F3 & F4 & F5). rewrite F1, F3. apply (proj1 (proj2 (HW m Hm))). exact Hb'.
    + intros b Hb. destruct (HIn m b Hm Hb) as (b' & Hb' & F1 & F2 & F3 & F4 & F5). rewrite F1, F2, F3, F4, F5. apply (proj1 (proj2 (proj2 (HW m Hm)))). exact Hb'.
  - apply single_max_nonneg.
  - exists avg. rewrite E. cbn [rbind of_option]. split; [reflexivity|]. split; [apply G|]. split; [exact V|]. intros p Hp. specialize (A p Hp).
    rewrite map_map in A. set (l1 := map (fun m => nth p (mv m) bin0) maps) in A. set (l2 := map (fun m => nth p (shifted (cut m) (c m) lo w NY) bin0) maps).
    assert (forall f : bin -> Qc, (forall a b, same_fields a b -> f a = f b) -> total f l1 = total f l2) as ET.
    { intros f Hf. unfold total, l1, l2. rewrite !map_map. apply qsum_map_ext. intros m Hm. apply Hf. apply HMv; assumption. }
    assert (length l1 = length l2) as EL by (unfold l1, l2; rewrite !map_length; reflexivity).
    unfold averages in *. rewrite EL in A. rewrite (ET bM), (ET bN), (ET (fun c => bM c * bU c)), (ET (fun c => bM c * bV c)), (ET (fun c => bN c * bT c)) in A; [exact A| | | | |]; intros a b (F1 & F2 & F3 & F4 & F5); congruence.
Qed.
