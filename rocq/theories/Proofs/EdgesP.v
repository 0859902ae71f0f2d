From Coq Require Import String Permutation.
From Verif.Base Require Import QcX Res Np ListX Sort Sums.
From Verif.Model Require Import Bins Flow GridAverage ContactLine Sample Edges.
From Verif.Spec Require Import FlowSpec GridSpec EdgesSpec.
From Verif.Proofs Require Import FlowP GridAverageP GridP.
Local Open Scope list_scope.

Lemma skipn_add {A} a b (l : list A) : skipn a (skipn b l) = skipn (b + a) l.
Proof. revert l. induction b as [|b IH]; intros l; [reflexivity|]. destruct l; simpl; [destruct a; reflexivity|apply IH]. Qed.
(** *** Windows *)
Lemma group_app_hold {A} (n : nat) rolling (frames : list A) more : forall held, (List.length held + List.length frames < n)%nat ->
  group (Z.of_nat n) rolling (map Ok frames ++ more) held = group (Z.of_nat n) rolling more (held ++ frames).
Proof.
  induction frames as [|a fs IH]; intros held H; simpl; [rewrite app_nil_r; reflexivity|].
  simpl in H. rewrite app_length. simpl. destruct (Z.eqb_spec (Z.of_nat (List.length held + 1)) (Z.of_nat n)) as [E|E]; [lia|].
  rewrite IH by (rewrite app_length; simpl; lia). rewrite <- app_assoc. reflexivity.
Qed.
Lemma group_app_full {A} (n : nat) rolling (frames : list A) more held : (0 < n)%nat -> (List.length held + List.length frames = n)%nat -> (List.length held < n)%nat ->
  group (Z.of_nat n) rolling (map Ok frames ++ more) held =
  let r := group (Z.of_nat n) rolling more (if rolling then tl (held ++ frames) else []) in ((held ++ frames) :: fst r, snd r).
Proof.
  intros Hn H Hh. destruct (exists_last (l := frames)) as (fs & a & ->). { intros ->. simpl in H. lia. }
  rewrite app_length in H. simpl in H. rewrite map_app. simpl. rewrite <- app_assoc. rewrite group_app_hold by lia. simpl.
  rewrite !app_length. simpl. destruct (Z.eqb_spec (Z.of_nat (List.length held + List.length fs + 1)) (Z.of_nat n)) as [E|E]; [|lia].
  rewrite <- !app_assoc. reflexivity.
Qed.

(** rolling: one element at a time *)
Lemma group_rolling {A} (n : nat) (frames : list A) final more : (0 < n)%nat ->
  (forall held, group (Z.of_nat n) true more held = ([], final)) ->
  forall held, List.length held = (n - 1)%nat ->
  group (Z.of_nat n) true (map Ok frames ++ more) held =
  (map (fun k => window k n (held ++ frames)) (seq 0 (List.length frames)), final).
Proof.
  intros Hn HM. induction frames as [|a fs IH]; intros held Hh; simpl; [apply HM|].
  rewrite app_length. simpl. destruct (Z.eqb_spec (Z.of_nat (List.length held + 1)) (Z.of_nat n)) as [E|E]; [|lia].
  rewrite IH.
  - cbn [fst snd]. f_equal. f_equal.
    + unfold window. simpl. replace (held ++ a :: fs) with ((held ++ [a]) ++ fs) by (rewrite <- app_assoc; reflexivity).
      rewrite firstn_app. rewrite app_length. simpl. replace (n - (List.length held + 1))%nat with 0%nat by lia. simpl.
      rewrite app_nil_r. symmetry. apply firstn_all2. rewrite app_length. simpl. lia.
    + rewrite <- seq_shift, map_map. apply map_ext. intros k. unfold window. f_equal.
      replace (held ++ a :: fs) with ((held ++ [a]) ++ fs) by (rewrite <- app_assoc; reflexivity).
      destruct (held ++ [a]) as [|h t] eqn:Eh; [destruct held; discriminate|]. simpl. reflexivity.
  - destruct (held ++ [a]) as [|h t] eqn:Eh; [destruct held; discriminate|]. simpl.
    assert (List.length (held ++ [a]) = S (List.length t)) as K by (rewrite Eh; reflexivity). rewrite app_length in K. simpl in K. lia.
Qed.
Lemma group_stop {A} (n : Z) rolling (more : list (res A)) final :
  more = [] /\ final = None \/ (exists e rest, more = Err e :: rest /\ final = Some e) ->
  forall held, group n rolling more held = ([], final).
Proof. intros [[-> ->] | (e & rest & -> & ->)] held; reflexivity. Qed.
Lemma group_rolling_all {A} (n : nat) (frames : list A) final more : (0 < n)%nat ->
  (forall held, group (Z.of_nat n) true more held = ([], final)) ->
  group (Z.of_nat n) true (map Ok frames ++ more) [] =
  (map (fun k => window k n frames) (seq 0 (List.length frames + 1 - n)), final).
Proof.
  intros Hn HM. destruct (Nat.lt_ge_cases (List.length frames) n) as [L|L].
  - rewrite group_app_hold by (simpl; lia). simpl. rewrite HM. replace (List.length frames + 1 - n)%nat with 0%nat by lia. reflexivity.
  - rewrite <- (firstn_skipn (n - 1) frames) at 1. rewrite map_app, <- app_assoc. rewrite group_app_hold by (rewrite firstn_length; simpl; lia). simpl.
    rewrite (group_rolling n _ final more) by (auto; rewrite firstn_length; lia). rewrite firstn_skipn. do 3 f_equal. rewrite skipn_length. lia.
Qed.
Lemma group_blocks {A} (n : nat) final more : (0 < n)%nat ->
  (forall held, group (Z.of_nat n) false more held = ([], final)) ->
  forall m (frames : list A), (List.length frames <= m)%nat ->
  group (Z.of_nat n) false (map Ok frames ++ more) [] =
  (map (fun k => window (k * n) n frames) (seq 0 (List.length frames / n)), final).
Proof.
  intros Hn HM. induction m as [|m IH]; intros frames Hm.
  - destruct frames; [|simpl in Hm; lia]. simpl List.length. rewrite Nat.div_0_l by lia. simpl. apply HM.
  - destruct (Nat.lt_ge_cases (List.length frames) n) as [L|L].
    + rewrite group_app_hold by (simpl; lia). simpl. rewrite HM. rewrite Nat.div_small by exact L. reflexivity.
    + rewrite <- (firstn_skipn n frames) at 1. rewrite map_app, <- app_assoc.
      rewrite group_app_full by (simpl; rewrite ?firstn_length; lia). cbv zeta. simpl app. rewrite IH by (rewrite skipn_length; lia).
      cbn [fst snd]. f_equal. rewrite skipn_length.
      assert (List.length frames / n = S ((List.length frames - n) / n))%nat as ->.
      { replace (List.length frames) with ((List.length frames - n) + 1 * n)%nat at 1 by lia. rewrite Nat.div_add by lia. lia. }
      simpl seq. simpl map. f_equal. rewrite <- seq_shift, map_map. apply map_ext. intros k. unfold window. f_equal. 
      rewrite skipn_add. reflexivity.
Qed.

(** *** Moving records *)
Definition mv (a b : Qc) (r : record) : record := set_col 1 (col 1 r + b) (set_col 0 (col 0 r + a) r).
Lemma mv_length a b r : List.length (mv a b r) = List.length r.
Proof. unfold mv. rewrite !set_col_length. reflexivity. Qed.
Lemma mv_x a b r : (1 < List.length r)%nat -> col 0 (mv a b r) = col 0 r + a.
Proof. intros H. unfold mv. rewrite col_set_other by lia. apply col_set_col. lia. Qed.
Lemma mv_y a b r : (1 < List.length r)%nat -> col 1 (mv a b r) = col 1 r + b.
Proof. intros H. unfold mv. apply col_set_col. rewrite set_col_length. lia. Qed.
Lemma mv_other a b r k : (1 < k)%nat -> col k (mv a b r) = col k r.
Proof. intros H. unfold mv. rewrite !col_set_other by lia. reflexivity. Qed.
Lemma fields_x : index_of "X"%string fields = Some 0%nat. Proof. reflexivity. Qed.
Lemma fields_y : index_of "Y"%string fields = Some 1%nat. Proof. reflexivity. Qed.
Lemma fld_x r : fld fields "X" r = col 0 r. Proof. reflexivity. Qed.
Lemma fld_y r : fld fields "Y" r = col 1 r. Proof. reflexivity. Qed.
Lemma fld_other l : l <> "X"%string -> l <> "Y"%string -> (exists k, (1 < k)%nat /\ index_of l fields = Some k) \/ index_of l fields = None.
Proof.
  intros HX HY. unfold fields. simpl. destruct (String.eqb_spec l "X"); [tauto|]. destruct (String.eqb_spec l "Y"); [tauto|].
  repeat (match goal with |- context [if ?c then _ else _] => destruct c end; simpl; [left; eexists; split; [|reflexivity]; lia|]). auto.
Qed.
Lemma mv_fld a b r l : l <> "X"%string -> l <> "Y"%string -> fld fields l (mv a b r) = fld fields l r.
Proof. intros HX HY. unfold fld. destruct (fld_other l HX HY) as [(k & Hk & ->)| ->]; [apply (mv_other a b r k Hk)|reflexivity]. Qed.
Lemma mv_moved a b r : (1 < List.length r)%nat -> moved fields a b r (mv a b r).
Proof.
  intros H. split; [apply mv_length|]. split; [apply mv_x; exact H|]. split; [apply mv_y; exact H|]. intros l HX HY. apply mv_fld; assumption.
Qed.

Lemma regular_mv a b x0 y0 dx dy nx ny rows : regular fields x0 y0 dx dy nx ny rows ->
  regular fields (x0 + a) (y0 + b) dx dy nx ny (map (mv a b) rows).
Proof.
  intros (H1 & H2 & H3). split; [rewrite map_length; exact H1|]. split.
  - intros r Hr. apply in_map_iff in Hr. destruct Hr as (r0 & <- & Hr). rewrite mv_length. apply H2; exact Hr.
  - intros i j Hi Hj. cbv zeta. destruct (H3 i j Hi Hj) as [A B].
    assert (j * nx + i < List.length rows)%nat as Hp by (rewrite H1; apply rm_lt; assumption).
    rewrite (nth_indep _ [] (mv a b [])) by (rewrite map_length; exact Hp). rewrite map_nth.
    assert (1 < List.length (nth (j * nx + i) rows []))%nat as Hl by (rewrite H2 by (apply nth_In; exact Hp); simpl; lia).
    rewrite fld_x, fld_y, mv_x, mv_y by exact Hl. rewrite fld_x in A. rewrite fld_y in B. rewrite A, B. split; ring.
Qed.
Lemma gridded_mv a b x0 y0 dx dy nx ny rows : gridded fields x0 y0 dx dy nx ny rows ->
  gridded fields (x0 + a) (y0 + b) dx dy nx ny (map (mv a b) rows).
Proof. intros (g & P & R). exists (map (mv a b) g). split; [apply Permutation_map; exact P|apply regular_mv; exact R]. Qed.
Lemma find_map {A B} (f : A -> B) p l : find p (map f l) = option_map f (find (fun a => p (f a)) l).
Proof. induction l as [|a l IH]; simpl; [reflexivity|]. destruct (p (f a)); [reflexivity|apply IH]. Qed.
Lemma find_ext {A} (p q : A -> bool) l : (forall a, In a l -> p a = q a) -> find p l = find q l.
Proof. induction l as [|a l IH]; intros H; simpl; [reflexivity|]. rewrite H by (left; reflexivity). destruct (q a); [reflexivity|]. apply IH. intros b Hb. apply H. right; exact Hb. Qed.
Lemma qeq_shift x a y : qeq (x + a) y = qeq x (y - a).
Proof. apply eq_true_iff_eq. rewrite !qeq_true. split; intros H; [rewrite <- H; ring|rewrite H; ring]. Qed.
Lemma value_mv a b rows l x y : (forall r, In r rows -> (1 < List.length r)%nat) -> l <> "X"%string -> l <> "Y"%string ->
  value_at fields (map (mv a b) rows) l x y = value_at fields rows l (x - a) (y - b).
Proof.
  intros HL HX HY. unfold value_at. rewrite find_map.
  rewrite (find_ext _ (fun r => (qeq (fld fields "X" r) (x - a) && qeq (fld fields "Y" r) (y - b))%bool)).
  - destruct (find _ rows) as [r|]; simpl; [apply mv_fld; assumption|reflexivity].
  - intros r Hr. rewrite !fld_x, !fld_y, mv_x, mv_y by (apply HL; exact Hr). rewrite !qeq_shift. reflexivity.
Qed.
Lemma find_perm {A} (p : A -> bool) l m : Permutation l m -> (forall a b, In a l -> In b l -> p a = true -> p b = true -> a = b) -> find p l = find p m.
Proof.
  intros P H. destruct (find p l) as [a|] eqn:E, (find p m) as [b|] eqn:F; try reflexivity.
  - apply find_some in E, F. f_equal. apply H; try tauto. apply (Permutation_in _ (Permutation_sym P)). tauto.
  - apply find_some in E. rewrite (find_none _ _ F a) in E; [destruct E; discriminate|]. apply (Permutation_in _ P). tauto.
  - apply find_some in F. rewrite (find_none _ _ E b) in F; [destruct F; discriminate|]. apply (Permutation_in _ (Permutation_sym P)). tauto.
Qed.
Lemma value_perm x0 y0 dx dy nx ny rows g l x y : 0 < dx -> 0 < dy -> Permutation rows g -> regular fields x0 y0 dx dy nx ny g ->
  value_at fields rows l x y = value_at fields g l x y.
Proof.
  intros Hdx Hdy P R. unfold value_at. rewrite (find_perm _ rows g); [reflexivity|exact P|].
  intros a b Ha Hb. rewrite !andb_true_iff, !qeq_true, !fld_x, !fld_y. intros [A1 A2] [B1 B2].
  apply (Permutation_in _ P) in Ha, Hb.
  destruct (reg_in fields x0 y0 dx dy nx ny g a R Ha) as (i & j & Hi & Hj & ->).
  destruct (reg_in fields x0 y0 dx dy nx ny g b R Hb) as (i' & j' & Hi' & Hj' & ->).
  destruct (reg_row fields 0 1 x0 y0 dx dy nx ny eq_refl eq_refl g i j R Hi Hj) as (_ & E1 & E2 & _).
  destruct (reg_row fields 0 1 x0 y0 dx dy nx ny eq_refl eq_refl g i' j' R Hi' Hj') as (_ & F1 & F2 & _).
  assert (Z.of_nat i = Z.of_nat i')%Z as K1. { apply (lattice_inj x0 dx); [exact Hdx|]. change (x0 + NQ i * dx = x0 + NQ i' * dx). congruence. }
  assert (Z.of_nat j = Z.of_nat j')%Z as K2. { apply (lattice_inj y0 dy); [exact Hdy|]. change (y0 + NQ j * dy = y0 + NQ j' * dy). congruence. }
  apply Nat2Z.inj in K1, K2. congruence.
Qed.

(** *** The adjusted map of one edge *)
Lemma same_row_const y0 dx dy n rest : 0 < dx -> 0 < dy ->
  same_row y0 dx dy (repeat y0 n ++ rest) = rmap (fun k => (n + k)%nat) (same_row y0 dx dy rest).
Proof.
  intros Hx Hy. induction n as [|n IH]; simpl; [destruct (same_row y0 dx dy rest); reflexivity|].
  assert ((qle (y0 - dy / ZQ 2) y0 && qlt y0 (y0 + dx / ZQ 2))%bool = true) as ->.
  { apply andb_true_iff. rewrite qle_true, qlt_true. split; [clear Hx|clear Hy]; qc2q; lra. }
  rewrite IH. destruct (same_row y0 dx dy rest); reflexivity.
Qed.
Lemma map_const_repeat {A B} (c : B) (l : list A) : map (fun _ => c) l = repeat c (List.length l).
Proof. induction l; simpl; congruence. Qed.
Lemma cut_shape_grid y0 dx dy nx ny : 0 < dx -> 0 < dy -> dx <= ZQ 2 * dy -> (0 < nx)%nat -> (1 < ny)%nat ->
  get_cut_shape dx dy (grid ny nx (fun j _ => y0 + NQ j * dy)) = Ok (nx, ny).
Proof.
  intros Hx Hy Hxy Hnx Hny. set (g := grid ny nx _). assert (List.length g = (ny * nx)%nat) as HL by apply grid_length.
  unfold g in *. clear g. destruct ny as [|[|ny]]; try lia. destruct nx as [|nx]; [lia|].
  revert HL. rewrite !grid_S. rewrite !map_const_repeat, !seq_length, NQ_0. replace (y0 + 0 * dy) with y0 by ring.
  cbn [repeat app]. intros HL. unfold get_cut_shape. rewrite HL. rewrite same_row_const by assumption.
  cbn [same_row].
  assert ((qle (y0 - dy / ZQ 2) (y0 + NQ 1 * dy) && qlt (y0 + NQ 1 * dy) (y0 + dx / ZQ 2))%bool = false) as ->.
  { apply andb_false_iff. right. apply qlt_false. change (NQ 1) with 1. clear HL. qc2q; lra. }
  change (rmap (fun k => (nx + k)%nat) (Ok 0%nat)) with (@Ok nat (nx + 0)%nat). rewrite Nat.add_0_r. cbn [rbind].
  rewrite Nat.div_mul by lia. reflexivity.
Qed.

Lemma row_of_bX cells : map bX cells = map (col 0) (map row_of cells).
Proof. rewrite map_map. reflexivity. Qed.
Lemma row_of_bY cells : map bY cells = map (col 1) (map row_of cells).
Proof. rewrite map_map. reflexivity. Qed.
Lemma max_positions z d n l : 0 < d -> (0 < n)%nat -> (forall v, In v l <-> exists i, (i < n)%nat /\ v = z + NQ i * d) -> list_max l = Some (z + NQ (n - 1) * d).
Proof.
  intros Hd Hn H. apply list_max_spec. split.
  - apply H. exists (n - 1)%nat. split; [lia|reflexivity].
  - intros v Hv. apply H in Hv. destruct Hv as (i & Hi & ->). destruct (Nat.eq_dec i (n - 1)) as [->|N]; [apply Qcle_refl|].
    apply qc_lt_le, step_lt; [exact Hd|lia].
Qed.
Definition inner_pos (d : side) (x0 dx : Qc) (nx : nat) : Qc := match d with SLeft => x0 + NQ (nx - 1) * dx | _ => x0 end.
Lemma adjust_gridded d cells x0 y0 dx dy nx ny : 0 < dx -> 0 < dy -> (0 < nx)%nat -> (0 < ny)%nat -> d <> SOther ->
  gridded fields x0 y0 dx dy nx ny (map row_of cells) ->
  exists cells', adjust_cell_coordinates cells d = Ok ((inner_pos d x0 dx nx, y0), cells') /\
    map row_of cells' = map (mv (- inner_pos d x0 dx nx) (- y0)) (map row_of cells).
Proof.
  intros Hdx Hdy Hnx Hny Hd G. unfold adjust_cell_coordinates.
  assert (forall v, In v (map bX cells) <-> exists i, (i < nx)%nat /\ v = x0 + NQ i * dx) as HXS.
  { intros v. rewrite row_of_bX. apply (gridded_xs fields 0 1 x0 y0 dx dy nx ny eq_refl eq_refl); assumption. }
  assert (list_min (map bY cells) = Some y0) as HYM.
  { rewrite row_of_bY. apply (min_positions y0 dy ny); [assumption|assumption|].
    intros v. apply (gridded_ys fields 0 1 x0 y0 dx dy nx ny eq_refl eq_refl); assumption. }
  assert (edge_x d (map bX cells) = Ok (Some (inner_pos d x0 dx nx))) as ->.
  { unfold edge_x, inner_pos. destruct d; [| |congruence]; apply f_equal.
    - apply (max_positions x0 dx nx); [assumption|assumption|]. intros v. rewrite unique_in. apply HXS.
    - apply (min_positions x0 dx nx); [assumption|assumption|]. intros v. rewrite unique_in. apply HXS. }
  cbn [rbind]. rewrite HYM. cbn [fst snd]. eexists. split; [reflexivity|]. rewrite !map_map. apply map_ext. intros b. reflexivity.
Qed.
Lemma add_adjusted_ok d cells x0 y0 dx dy nx ny fi : 0 < dx -> 0 < dy -> dx <= ZQ 2 * dy -> (0 < nx)%nat -> (1 < ny)%nat -> d <> SOther ->
  f_spacing fi = Some (dx, dy) -> gridded fields x0 y0 dx dy nx ny (map row_of cells) ->
  let xe := inner_pos d x0 dx nx in
  exists f, add_adjusted_flow cells d fi = Ok ((xe, y0), f) /\ labels (data f) = fields /\
    info f = mkFinfo (Some (Z.of_nat nx, Z.of_nat ny)) (Some (xe, y0)) (Some (dx, dy)) (Some (Z.of_nat (nx * ny))) /\
    regular fields (x0 - xe) 0 dx dy nx ny (rows (data f)) /\
    Permutation (rows (data f)) (map (mv (- xe) (- y0)) (map row_of cells)).
Proof.
  intros Hdx Hdy Hxy Hnx Hny Hd Hs G xe. unfold add_adjusted_flow. rewrite Hs.
  destruct (adjust_gridded d cells x0 y0 dx dy nx ny Hdx Hdy Hnx ltac:(lia) Hd G) as (cells' & -> & E). cbn [rbind fst snd].
  rewrite E. pose proof (gridded_mv (- inner_pos d x0 dx nx) (- y0) _ _ _ _ _ _ _ G) as (g & P & R).
  rewrite (gridded_sort fields 0 1 _ _ dx dy nx ny eq_refl eq_refl Hdx Hdy g _ P R). cbn [rbind rows].
  replace (y0 + - y0) with 0 in R by ring.
  assert (map (col 1) g = grid ny nx (fun j _ => 0 + NQ j * dy)) as EY.
  { rewrite (reg_eq_grid _ _ _ _ _ _ _ g R) at 1. rewrite grid_map. apply grid_ext. intros j i Hj Hi.
    apply (reg_row fields 0 1 _ _ _ _ _ _ eq_refl eq_refl g i j R Hi Hj). }
  rewrite EY, (cut_shape_grid 0 dx dy nx ny) by assumption. cbn [rbind fst snd].
  eexists. split; [reflexivity|]. cbn [data info labels rows]. split; [reflexivity|]. split; [reflexivity|]. split; [|apply Permutation_sym; exact P].
  unfold xe. replace (x0 - inner_pos d x0 dx nx) with (x0 + - inner_pos d x0 dx nx) by ring. exact R.
Qed.

(** *** Averages over frames *)
Definition frame_ok (dx dy : Qc) (f : list bin * finfo) : Prop := edge_cells dx dy (fst f) /\ f_spacing (snd f) = Some (dx, dy).
(** what is known of the adjusted map [m] of the cells, whose edge is at p *)
Definition adjusted (d : side) (dx dy : Qc) (f : list bin * finfo) (p : Qc * Qc) (m : flow) : Prop :=
  lattice_map fields 0 0 dx dy m /\ inner_end d (fst f) (fst p) /\ lowest (fst f) (snd p) /\
  Permutation (rows (data m)) (map (mv (- fst p) (- snd p)) (map row_of (fst f))) /\
  forall l x y, l <> "X"%string -> l <> "Y"%string -> value_at fields (rows (data m)) l x y = cell_value (fst f) l (x + fst p) (y + snd p).
Lemma in_bX_iff cells v : In v (map bX cells) <-> exists b, In b cells /\ bX b = v.
Proof. rewrite in_map_iff. split; intros (b & H1 & H2); exists b; auto. Qed.
Lemma adjusted_ok d dx dy f : 0 < dx -> 0 < dy -> dx <= ZQ 2 * dy -> d <> SOther -> frame_ok dx dy f ->
  exists p m, add_adjusted_flow (fst f) d (snd f) = Ok (p, m) /\ adjusted d dx dy f p m.
Proof.
  intros Hdx Hdy Hxy Hd [(x0 & y0 & nx & ny & Hnx & Hny & G) Hs].
  destruct (add_adjusted_ok d (fst f) x0 y0 dx dy nx ny (snd f) Hdx Hdy Hxy Hnx Hny Hd Hs G) as (m & E & L & I & R & P). cbv zeta in *.
  set (xe := inner_pos d x0 dx nx) in *. exists (xe, y0), m. split; [exact E|].
  assert (forall v, In v (map bX (fst f)) <-> exists i, (i < nx)%nat /\ v = x0 + NQ i * dx) as HXS.
  { intros v. rewrite row_of_bX. apply (gridded_xs fields 0 1 x0 y0 dx dy nx ny eq_refl eq_refl); [lia|exact G]. }
  assert (forall v, In v (map bY (fst f)) <-> exists i, (i < ny)%nat /\ v = y0 + NQ i * dy) as HYS.
  { intros v. rewrite row_of_bY. apply (gridded_ys fields 0 1 x0 y0 dx dy nx ny eq_refl eq_refl); [lia|exact G]. }
  assert (list_min (map bY (fst f)) = Some y0) as HYM by (apply (min_positions y0 dy ny); [assumption|lia|exact HYS]).
  cbn [fst snd].
  split; [|split; [|split; [|split]]]; cbn [fst snd].
  - split; [exact L|]. rewrite I. cbn [f_spacing f_shape]. split; [reflexivity|].
    exists (match d with SLeft => - Z.of_nat (nx - 1) | _ => 0 end)%Z, 0%Z, nx, ny. split; [exact Hnx|]. split; [lia|]. split; [reflexivity|].
    replace (0 + ZQ 0 * dy) with 0 by (rewrite ZQ_0; ring).
    replace (0 + ZQ _ * dx) with (x0 - xe); [exact R|]. unfold xe, inner_pos. destruct d; [rewrite ZQ_opp; unfold NQ; ring|rewrite ZQ_0; ring|rewrite ZQ_0; ring].
  - unfold inner_end, xe, inner_pos. destruct d; [| |congruence].
    + pose proof (max_positions x0 dx nx _ Hdx Hnx HXS) as K. apply list_max_spec in K. destruct K as [K1 K2]. split; [exact K1|]. intros b Hb. apply K2. apply in_map. exact Hb.
    + pose proof (min_positions x0 dx nx _ Hdx Hnx HXS) as K. apply list_min_spec in K. destruct K as [K1 K2]. split; [exact K1|]. intros b Hb. apply K2. apply in_map. exact Hb.
  - apply list_min_spec in HYM. destruct HYM as [K1 K2]. split; [exact K1|]. intros b Hb. apply K2. apply in_map. exact Hb.
  - exact P.
  - intros l x y HX HY. unfold cell_value. rewrite <- (value_perm (x0 - xe) 0 dx dy nx ny _ _ l x y Hdx Hdy (Permutation_sym P) R).
    rewrite value_mv; [|intros r Hr; rewrite (gridded_wf fields x0 y0 dx dy nx ny _ r G Hr); simpl; lia|exact HX|exact HY].
    f_equal; ring.
Qed.
Lemma adjusted_all d dx dy frames : 0 < dx -> 0 < dy -> dx <= ZQ 2 * dy -> d <> SOther -> Forall (frame_ok dx dy) frames ->
  exists fs, rmapM (fun f => add_adjusted_flow (fst f) d (snd f)) frames = Ok fs /\ Forall2 (fun f a => adjusted d dx dy f (fst a) (snd a)) frames fs.
Proof.
  intros Hdx Hdy Hxy Hd HF. induction HF as [|f frames H HF (fs & E & HA)]; [exists []; split; [reflexivity|constructor]|].
  destruct (adjusted_ok d dx dy f Hdx Hdy Hxy Hd H) as (p & m & E0 & A). exists ((p, m) :: fs). cbn [rmapM]. rewrite E0. cbn [rbind]. rewrite E. split; [reflexivity|constructor; assumption].
Qed.
Lemma edge_names : names_ok fields edge_weights.
Proof.
  split; [unfold edge_weights; simpl; repeat constructor; simpl; intuition discriminate|].
  intros l w H. unfold edge_weights in H. simpl in H. destruct H as [[= <- <-] | [[= <- <-] | [[= <- <-] | []]]]; unfold fields, edge_weights; simpl; repeat split; try tauto; try discriminate; intuition discriminate.
Qed.
Definition one_sided (d : side) (x0 dx : Qc) (nx : nat) : Prop := match d with SLeft => x0 = - (NQ (nx - 1) * dx) | _ => x0 = 0 end.
Lemma adjusted_records d dx dy f p m : d <> SOther -> adjusted d dx dy f p m ->
  (forall r, In r (rows (data m)) -> 0 <= fld fields "Y" r /\ match d with SLeft => fld fields "X" r <= 0 | _ => 0 <= fld fields "X" r end) /\
  (exists r, In r (rows (data m)) /\ fld fields "Y" r = 0) /\ (exists r, In r (rows (data m)) /\ fld fields "X" r = 0) /\
  (forall l r, l <> "X"%string -> l <> "Y"%string -> In r (rows (data m)) -> exists b, In b (fst f) /\ fld fields l r = fld fields l (row_of b)).
Proof.
  intros Hd (_ & [I1 I2] & [L1 L2] & P & _).
  assert (forall r, In r (rows (data m)) <-> exists b, In b (fst f) /\ r = mv (- fst p) (- snd p) (row_of b)) as HR.
  { intros r. split.
    - intros H. apply (Permutation_in _ P) in H. rewrite map_map in H. apply in_map_iff in H. destruct H as (b & <- & Hb). exists b. auto.
    - intros (b & Hb & ->). apply (Permutation_in _ (Permutation_sym P)). rewrite map_map. apply in_map_iff. exists b. auto. }
  assert (forall b, fld fields "X" (mv (- fst p) (- snd p) (row_of b)) = bX b + - fst p /\ fld fields "Y" (mv (- fst p) (- snd p) (row_of b)) = bY b + - snd p) as HM.
  { intros b. rewrite fld_x, fld_y, mv_x, mv_y by (simpl; lia). split; reflexivity. }
  split; [|split; [|split]].
  - intros r Hr. apply HR in Hr. destruct Hr as (b & Hb & ->). destruct (HM b) as [-> ->]. specialize (I2 b Hb). specialize (L2 b Hb).
    split; [clear I2; qlra'|]. clear L2. destruct d; [qlra'|qlra'|congruence].
  - apply in_map_iff in L1. destruct L1 as (b & E & Hb). exists (mv (- fst p) (- snd p) (row_of b)). split; [apply HR; exists b; auto|]. destruct (HM b) as [_ ->]. rewrite E. ring.
  - apply in_map_iff in I1. destruct I1 as (b & E & Hb). exists (mv (- fst p) (- snd p) (row_of b)). split; [apply HR; exists b; auto|]. destruct (HM b) as [-> _]. rewrite E. ring.
  - intros l r HX HY Hr. apply HR in Hr. destruct Hr as (b & Hb & ->). exists b. split; [exact Hb|]. apply mv_fld; assumption.
Qed.
Lemma Forall2_in_r {A B} (R : A -> B -> Prop) l m b : Forall2 R l m -> In b m -> exists a, In a l /\ R a b.
Proof. induction 1 as [|x y l m H HF IH]; intros Hb; [destruct Hb|]. destruct Hb as [<- |Hb]; [exists x; split; [left; reflexivity|exact H]|]. destruct (IH Hb) as (a & Ha & HR). exists a. split; [right; exact Ha|exact HR]. Qed.

Lemma edge_average d dx dy frames : 0 < dx -> 0 < dy -> dx <= ZQ 2 * dy -> d <> SOther -> Forall (frame_ok dx dy) frames -> frames <> [] ->
  exists fs ps out x0 nx ny, rmapM (fun f => add_adjusted_flow (fst f) d (snd f)) frames = Ok fs /\
    Forall2 (fun f p => inner_end d (fst f) (fst p) /\ lowest (fst f) (snd p)) frames ps /\
    average_edge fs = Ok (qmean (map fst ps), out) /\ labels (data out) = fields /\
    (0 < nx)%nat /\ (0 < ny)%nat /\ regular fields x0 0 dx dy nx ny (rows (data out)) /\ one_sided d x0 dx nx /\
    f_shape (info out) = Some (Z.of_nat nx, Z.of_nat ny) /\ f_spacing (info out) = Some (dx, dy) /\
    (forall fp b, In fp (combine frames ps) -> In b (fst (fst fp)) -> exists r, In r (rows (data out)) /\ fld fields "X" r = bX b - fst (snd fp) /\ fld fields "Y" r = bY b - snd (snd fp)) /\
    (forall r, In r (rows (data out)) ->
       let at_place l := map (fun fp => cell_value (fst (fst fp)) l (fld fields "X" r + fst (snd fp)) (fld fields "Y" r + snd (snd fp))) (combine frames ps) in
       (forall l, In l ["N"; "M"]%string -> fld fields l r = qmean (at_place l)) /\
       ((forall f b, In f frames -> In b (fst f) -> 0 <= bM b /\ 0 <= bN b) ->
        weighted_mean (at_place "U"%string) (at_place "M"%string) (fld fields "U" r) /\
        weighted_mean (at_place "V"%string) (at_place "M"%string) (fld fields "V" r) /\
        weighted_mean (at_place "T"%string) (at_place "N"%string) (fld fields "T" r))).
Proof.
  intros Hdx Hdy Hxy Hd HF Hne. destruct (adjusted_all d dx dy frames Hdx Hdy Hxy Hd HF) as (fs & E & HA).
  assert (map snd fs <> []) as HN. { inversion HA; subst; [congruence|simpl; discriminate]. }
  assert (Forall (lattice_map fields 0 0 dx dy) (map snd fs)) as HL.
  { apply Forall_forall. intros m Hm. apply in_map_iff in Hm. destruct Hm as (a & <- & Ha). destruct (Forall2_in_r _ _ _ _ HA Ha) as (f & _ & H). apply H. }
  destruct (result_grid fields 0 0 dx dy ltac:(simpl; auto) ltac:(simpl; auto) Hdx Hdy (map snd fs) edge_weights true HN HL edge_names)
    as (out & x0 & y0 & nx & ny & EO & LO & IO & Hnx & Hny & R & C & (m1 & r1 & Hm1 & Hr1 & X0) & (m2 & r2 & Hm2 & Hr2 & Y0) & (m3 & r3 & Hm3 & Hr3 & X1) & _ & VM & _ & _).
  assert (forall m, In m (map snd fs) -> exists f p, In f frames /\ adjusted d dx dy f p m) as HAm.
  { intros m Hm. apply in_map_iff in Hm. destruct Hm as (a & <- & Ha). destruct (Forall2_in_r _ _ _ _ HA Ha) as (f & Hf & H). exists f, (fst a). auto. }
  assert (y0 = 0) as ->.
  { destruct (HAm m2 Hm2) as (f & p & _ & A). destruct (adjusted_records d dx dy f p m2 Hd A) as (B1 & (r & Hr & Er) & _).
    destruct (C m2 r Hm2 Hr) as (i & j & Hi & Hj & _ & EY). destruct (B1 r2 Hr2) as [B _]. rewrite Y0 in B. rewrite Er in EY.
    pose proof (qmult_nonneg _ _ (NQ_nonneg j) (qc_lt_le _ _ Hdy)) as K. apply Qcle_antisym; [|exact B]. generalize dependent (NQ j * dy). intros; qlra'. }
  assert (one_sided d x0 dx nx) as HO.
  { unfold one_sided. destruct d; [| |congruence].
    - destruct (HAm m3 Hm3) as (f & p & _ & A). destruct (adjusted_records SLeft dx dy f p m3 Hd A) as (B1 & _ & (r & Hr & Er) & _).
      destruct (C m3 r Hm3 Hr) as (i & j & Hi & Hj & EX & _). destruct (B1 r3 Hr3) as [_ B]. rewrite X1 in B. rewrite Er in EX.
      assert (NQ i * dx <= NQ (nx - 1) * dx) as K. { pose proof (lattice_mono 0 dx (Z.of_nat i) (Z.of_nat (nx - 1)) Hdx ltac:(lia)) as K. unfold NQ. generalize dependent (ZQ (Z.of_nat i) * dx). generalize dependent (ZQ (Z.of_nat (nx-1)) * dx). intros; qlra'. }
      generalize dependent (NQ i * dx). generalize dependent (NQ (nx - 1) * dx). clear. intros. apply Qcle_antisym; qlra'.
    - destruct (HAm m1 Hm1) as (f & p & _ & A). destruct (adjusted_records SRight dx dy f p m1 Hd A) as (B1 & _ & (r & Hr & Er) & _).
      destruct (C m1 r Hm1 Hr) as (i & j & Hi & Hj & EX & _). destruct (B1 r1 Hr1) as [_ B]. rewrite X0 in B. rewrite Er in EX.
      pose proof (qmult_nonneg _ _ (NQ_nonneg i) (qc_lt_le _ _ Hdx)) as K. apply Qcle_antisym; [|exact B]. generalize dependent (NQ i * dx). intros; qlra'. }
  exists fs, (map fst fs), out, x0, nx, ny. split; [exact E|]. split.
  { clear -HA. induction HA as [|f a frames fs H HF IH]; simpl; constructor; [|exact IH]. split; apply H. }
  split; [unfold average_edge; rewrite EO; cbn [rbind]; rewrite map_map; reflexivity|]. split; [exact LO|]. split; [exact Hnx|]. split; [exact Hny|]. split; [exact R|].
  split; [exact HO|]. rewrite IO. cbn [f_shape f_spacing]. split; [reflexivity|]. split; [reflexivity|]. split.
  { intros [f p] b Hfp Hb. cbn [fst snd] in *.
    assert (exists m, In (p, m) fs /\ adjusted d dx dy f p m) as (m & Hm & A).
    { clear -HA Hfp. induction HA as [|f' a frames fs H HF IH]; [destruct Hfp|]. cbn [map combine] in Hfp. destruct Hfp as [[= -> <-]|Hfp]; [exists (snd a); destruct a; split; [left; reflexivity|exact H]|].
      destruct (IH Hfp) as (m & H1 & H2). exists m. split; [right; exact H1|exact H2]. }
    destruct A as (_ & _ & _ & P & _). set (r' := mv (- fst p) (- snd p) (row_of b)).
    assert (In r' (rows (data m))) as Hr'. { apply (Permutation_in _ (Permutation_sym P)). rewrite map_map. apply in_map_iff. exists b. auto. }
    destruct (C m r') as (i & j & Hi & Hj & EX & EY); [apply in_map_iff; exists (p, m); auto|exact Hr'|].
    destruct R as (RL & _ & R). destruct (R i j Hi Hj) as [R1 R2]. exists (nth (j * nx + i) (rows (data out)) []).
    split; [apply nth_In; rewrite RL; apply rm_lt; assumption|]. rewrite R1, R2, <- EX, <- EY. unfold r'. rewrite fld_x, fld_y, mv_x, mv_y by (simpl; lia). split; reflexivity. }
  intros r Hr. set (at_place := fun l => map (fun fp : (list bin * finfo) * (Qc * Qc) => cell_value (fst (fst fp)) l (fld fields "X" r + fst (snd fp)) (fld fields "Y" r + snd (snd fp))) (combine frames (map fst fs))).
  change ((forall l, In l ["N"; "M"]%string -> fld fields l r = qmean (at_place l)) /\ ((forall f b, In f frames -> In b (fst f) -> 0 <= bM b /\ 0 <= bN b) ->
        weighted_mean (at_place "U"%string) (at_place "M"%string) (fld fields "U" r) /\ weighted_mean (at_place "V"%string) (at_place "M"%string) (fld fields "V" r) /\
        weighted_mean (at_place "T"%string) (at_place "N"%string) (fld fields "T" r))).
  assert (forall l, l <> "X"%string -> l <> "Y"%string -> map (fun m => value_at fields (rows (data m)) l (fld fields "X" r) (fld fields "Y" r)) (map snd fs) = at_place l) as EV.
  { intros l HX HY. unfold at_place. rewrite map_map. clear -HA HX HY. induction HA as [|f a frames fs H HF IH]; [reflexivity|]. cbn [map combine fst snd]. f_equal; [|exact IH]. apply H; assumption. }
  split.
  - intros l Hl. simpl in Hl. destruct Hl as [<- | [<- | []]]; (rewrite <- EV by discriminate); apply VM; try exact Hr; simpl; auto 10; try discriminate; unfold edge_weights; simpl; intuition discriminate.
  - intros Hpos.
    assert (forall w, w = "M"%string \/ w = "N"%string -> forall m r', In m (map snd fs) -> In r' (rows (data m)) -> 0 <= fld fields w r') as HW.
    { intros w Hw m r' Hm Hr'. destruct (HAm m Hm) as (f & p & Hf & A). destruct (adjusted_records d dx dy f p m Hd A) as (_ & _ & _ & B).
      destruct (B w r') as (b & Hb & ->); [destruct Hw as [-> | ->]; discriminate|destruct Hw as [-> | ->]; discriminate|exact Hr'|]. destruct (Hpos f b Hf Hb) as [P1 P2].
      destruct Hw as [-> | ->]; assumption. }
    rewrite <- !EV by discriminate.
    assert (forall l w, In (l, w) edge_weights -> weighted_mean (map (fun m => value_at fields (rows (data m)) l (fld fields "X" r) (fld fields "Y" r)) (map snd fs))
        (map (fun m => value_at fields (rows (data m)) w (fld fields "X" r) (fld fields "Y" r)) (map snd fs)) (fld fields l r)) as G.
    { intros l w Hl. apply (out_weighted fields 0 0 dx dy ltac:(simpl; auto) ltac:(simpl; auto) Hdx Hdy (map snd fs) edge_weights true HL edge_names out EO r l w Hr Hl).
      apply HW. unfold edge_weights in Hl. simpl in Hl. destruct Hl as [[= <- <-] | [[= <- <-] | [[= <- <-] | []]]]; auto. }
    split; [|split]; apply G; unfold edge_weights; simpl; auto.
Qed.
