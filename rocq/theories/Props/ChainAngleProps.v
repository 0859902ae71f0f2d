(** C98: contact angles of collected interfaces. *)
From Coq Require Import String Ascii Reals Permutation Lia Lra.
From Verif.Base Require Import QcX QcR Res Np Sort Bytes.
From Verif.Model Require Import Text PyText Click Cli CliRuns.
From Verif.Spec Require Import CliSpec CliReads PolygonSpec AngleSpec.
From Verif.Model Require Import Bins Table.
From Verif.Proofs Require Import TextP TableP PyTextP ClickP CliP CliTextP UtilsDisk.
From Verif.Props Require Import CliProps CliTextProps CliRunsProps ChainProps ChainFigureProps.
From Verif.Model Require Utils Formats Collect InterfaceFiles Average InterfaceAngle SampleFiles ContactAngle.
From Verif.Spec Require FilesSpec DiskSpec SecantSpec.
From Verif.Proofs Require InterfaceAngleP UtilsFiles.
From Verif.Props Require InterfaceFilesProps InterfaceAngleProps AngleRunProps.
Import DiskSpec(wf, contents).
Import InterfaceFilesProps(one_line, stored).
Import InterfaceAngle(split_edges, read_interface_file, point_le, measure_angle, fit_angle_from_segment, angle_loop, angle_step, found, none_found).
Local Open Scope string_scope.
Local Open Scope list_scope.
Local Notation length := List.length.

(** ** The angles of the points of an interface *)
(** The points are listed along the left edge from below and back along the right edge. *)
Definition left_edge (c : list (Qc * Qc)) : list (Qc * Qc) := firstn (Nat.div (length c) 2) c.
Definition right_edge (c : list (Qc * Qc)) : list (Qc * Qc) := firstn (Nat.div (length c) 2) (rev c).
(** [x] is the angle of the line from the first point [p0] of the edge to its point [p] nearest to the height above it, measured on the side of the liquid. *)
Definition secant_angle (edge : list (Qc * Qc)) (on_right : bool) (h : Qc) (x : option R) : Prop :=
  exists k p0 p, SecantSpec.chosen edge h k p0 p /\ (p = p0 -> x = None) /\
    (p <> p0 -> exists a, x = Some a /\ direction_angle (QR (if on_right then fst p0 - fst p else fst p - fst p0)) (QR (snd p - snd p0)) a).
(** [x] is the angle of the circle segment over the line between the lowest points which is as high as the highest point is above y = 0. *)
Definition segment_fit (c : list (Qc * Qc)) (x : option R) : Prop :=
  exists pl pr top, nth_error c 0 = Some pl /\ nth_error (rev c) 0 = Some pr /\ (exists p, In p c /\ snd p = top) /\ (forall p, In p c -> snd p <= top) /\
    (fst pl < fst pr -> 0 < top -> exists rad t, (0 < rad)%R /\ (0 < t < PI)%R /\ (QR (fst pr) - QR (fst pl) = 2 * rad * sin t)%R /\ (QR top = rad * (1 - cos t))%R /\ x = Some (ContactAngle.degrees t)) /\
    (fst pl = fst pr -> (0 < top -> x = Some 180%R) /\ (top = 0 -> x = None) /\ (top < 0 -> x = Some (-180)%R)) /\
    (fst pl <> fst pr -> x = Some (2 * ContactAngle.degrees (atan (2 * QR top / QR (fst pr - fst pl))))%R).
(** A row of the table: the time, then the mean, left and right angles if there is a height and the fitted angle if it is wanted. *)
Definition row_of (fit : bool) (height : option Qc) (t : Qc) (c : list (Qc * Qc)) (r : list (option R)) : Prop :=
  exists hs fs, r = Some (QR t) :: hs ++ fs /\ (height = None -> hs = []) /\
    (forall h, height = Some h -> exists m a b, hs = [m; a; b] /\ secant_angle (left_edge c) false h a /\ secant_angle (right_edge c) true h b /\ InterfaceAngleProps.mean_of a b m) /\
    (fit = false -> fs = []) /\ (fit = true -> exists x, fs = [x] /\ segment_fit c x).

(** ** What is read of the points *)
Lemma point_total p q : point_le p q = true \/ point_le q p = true.
Proof. unfold point_le. apply lexle_total. Qed.
Lemma point_trans p q r : point_le p q = true -> point_le q r = true -> point_le p r = true.
Proof. unfold point_le. apply lexle_trans. Qed.
Lemma point_antisym p q : point_le p q = true -> point_le q p = true -> p = q.
Proof. unfold point_le. intros H1 H2. pose proof (lexle_antisym _ _ H1 H2) as E. destruct p, q. cbn [fst snd] in E. injection E as -> ->. reflexivity. Qed.
Lemma rising_sorted (l : list (Qc * Qc)) : (forall i j, (i < j)%nat -> (j < length l)%nat -> snd (nth i l (0, 0)) < snd (nth j l (0, 0))) -> sorted point_le l.
Proof.
  induction l as [|p l IH]; intros H; constructor.
  - intros q Hq. apply (In_nth l q (0, 0)) in Hq as (j & Hj & <-). unfold point_le. apply lexle_cons. left. exact (H 0%nat (S j) ltac:(lia) ltac:(cbn; lia)).
  - apply IH. intros i j Hij Hj. exact (H (S i) (S j) ltac:(lia) ltac:(cbn; lia)).
Qed.
Lemma rising_isort l : (forall i j, (i < j)%nat -> (j < length l)%nat -> snd (nth i l (0, 0)) < snd (nth j l (0, 0))) -> isort point_le l = l.
Proof. intros H. apply isort_id; [exact point_total|exact point_trans|exact point_antisym|exact (rising_sorted l H)]. Qed.
Lemma combine_columns (c : list (Qc * Qc)) : combine (map fst c) (map snd c) = c.
Proof. induction c as [|[x y] c IH]; cbn; congruence. Qed.
Definition rising (c : list (Qc * Qc)) : Prop := forall i j, (i < j)%nat -> (2 * j < length c)%nat -> snd (nth i c (0, 0)) < snd (nth j c (0, 0)).
Lemma half k : Nat.div (k + k) 2 = k.
Proof. replace (k + k)%nat with (k * 2)%nat by lia. apply Nat.div_mul. lia. Qed.
Lemma right_nth c k i : length c = (k + k)%nat -> (i < k)%nat -> nth i (right_edge c) (0, 0) = nth (k + k - 1 - i) c (0, 0).
Proof. intros L Hi. unfold right_edge. rewrite L, half, nth_firstn_lt, rev_nth by lia. f_equal. lia. Qed.
Lemma edges_read c : two_edges c -> rising c -> split_edges (map fst c) (map snd c) = (left_edge c, right_edge c).
Proof.
  intros (k & L & HS) HR. unfold split_edges. rewrite map_length, combine_columns. fold (left_edge c). fold (right_edge c). f_equal; apply rising_isort; intros i j Hij Hj.
  - unfold left_edge in *. rewrite L, half in *. rewrite firstn_length, L in Hj. rewrite !nth_firstn_lt by lia. apply HR; lia.
  - assert (length (right_edge c) = k) as Lr by (unfold right_edge; rewrite firstn_length, rev_length, L, half; lia). rewrite Lr in Hj. rewrite !(right_nth c k) by lia. rewrite <- !HS by lia. apply HR; lia.
Qed.
Lemma edges_some c : two_edges c -> (2 <= length c)%nat -> left_edge c <> [] /\ right_edge c <> [].
Proof.
  intros (k & L & _) H. unfold left_edge, right_edge. rewrite L, half. split; intros C; apply (f_equal (@length _)) in C; rewrite firstn_length, ?rev_length, L in C; cbn [length] in C; lia.
Qed.

(** ** The angles are found *)
Lemma measure_secant edge on_right h : edge <> [] -> SecantSpec.lowest_first edge -> exists x, measure_angle edge on_right h = Ok x /\ secant_angle edge on_right h x.
Proof.
  intros Hne HL. destruct (InterfaceAngleProps.C70_total edge h Hne) as (k & p0 & p & HC). destruct (InterfaceAngleProps.C70_secant edge h k p0 p HL HC) as [H1 H2].
  assert (p = p0 \/ p <> p0) as [E|N] by (destruct p as [x y], p0 as [x0 y0]; destruct (Qc_eq_dec x x0); [destruct (Qc_eq_dec y y0)|]; [left|right|right]; congruence).
  - destruct (H2 E) as [A B]. exists None. split; [destruct on_right; assumption|]. exists k, p0, p. split; [exact HC|]. split; [reflexivity|contradiction].
  - destruct (H1 N) as (a & b & A & B & DA & DB). exists (Some (if on_right then b else a)). split; [destruct on_right; assumption|]. exists k, p0, p. split; [exact HC|]. split; [contradiction|].
    intros _. eexists. split; [reflexivity|]. destruct on_right; assumption.
Qed.
Lemma left_lowest c : two_edges c -> (2 <= length c)%nat -> rising c -> SecantSpec.lowest_first (left_edge c) /\ SecantSpec.lowest_first (right_edge c).
Proof.
  intros (k & L & HS) H HR. assert (0 < k)%nat as K by lia.
  assert (forall e, length e = k -> (forall i, (i < k)%nat -> snd (nth i e (0, 0)) = snd (nth i c (0, 0))) -> SecantSpec.lowest_first e) as G.
  { intros e Le He. exists (nth 0 e (0, 0)). split; [apply nth_error_nth'; lia|]. intros q Hq. apply (In_nth e q (0, 0)) in Hq as (j & Hj & <-). rewrite !He by lia.
    destruct j as [|j]; [apply Qcle_refl|]. apply Qclt_le_weak, HR; lia. }
  split; apply G.
  - unfold left_edge. rewrite firstn_length, L, half. lia.
  - intros i Hi. unfold left_edge. rewrite L, half, nth_firstn_lt by lia. reflexivity.
  - unfold right_edge. rewrite firstn_length, rev_length, L, half. lia.
  - intros i Hi. rewrite (right_nth c k) by assumption. symmetry. apply HS. exact Hi.
Qed.
Lemma fit_found c : two_edges c -> (2 <= length c)%nat -> rising c -> exists x, fit_angle_from_segment (left_edge c) (right_edge c) = Ok x /\ segment_fit c x.
Proof.
  intros HT H HR. pose proof HT as (k & L & HS). assert (0 < k)%nat as K by lia. set (top := snd (nth (k - 1) c (0, 0))).
  assert (forall i, (i < k)%nat -> snd (nth i c (0, 0)) <= top) as Htop.
  { intros i Hi. unfold top. destruct (Nat.eq_dec i (k - 1)) as [-> | N]; [apply Qcle_refl|]. apply Qclt_le_weak, HR; lia. }
  assert (forall i, (i < k + k)%nat -> exists j, (j < k)%nat /\ snd (nth i c (0, 0)) = snd (nth j c (0, 0))) as HJ.
  { intros i Hi. destruct (Nat.lt_ge_cases i k) as [A|A]; [exists i; auto|]. exists (k + k - 1 - i)%nat. split; [lia|]. rewrite (HS (k + k - 1 - i)%nat) by lia. do 2 f_equal. lia. }
  assert (forall p, In p c -> snd p <= top) as Hle.
  { intros p Hp. apply (In_nth c p (0, 0)) in Hp as (i & Hi & <-). destruct (HJ i ltac:(lia)) as (j & Hj & ->). exact (Htop j Hj). }
  assert (forall e, length e = k -> (forall i, (i < k)%nat -> snd (nth i e (0, 0)) = snd (nth i c (0, 0))) -> InterfaceAngleProps.top_of e top) as G.
  { intros e Le He. split; [exists (nth (k - 1) e (0, 0)); split; [apply nth_In; lia|rewrite He by lia; reflexivity]|]. intros q Hq. apply (In_nth e q (0, 0)) in Hq as (j & Hj & <-). rewrite He by lia. apply Htop. lia. }
  assert (InterfaceAngleProps.top_of (left_edge c) top) as T1.
  { apply G; [unfold left_edge; rewrite firstn_length, L, half; lia|]. intros i Hi. unfold left_edge. rewrite L, half, nth_firstn_lt by lia. reflexivity. }
  assert (InterfaceAngleProps.top_of (right_edge c) top) as T2.
  { apply G; [unfold right_edge; rewrite firstn_length, rev_length, L, half; lia|]. intros i Hi. rewrite (right_nth c k) by assumption. symmetry. apply HS. exact Hi. }
  assert (forall (l : list (Qc * Qc)), (k <= length l)%nat -> nth_error (firstn k l) 0 = nth_error l 0) as FF by (intros l Hl; destruct k; [lia|destruct l; reflexivity]).
  destruct (nth_error c 0) as [pl|] eqn:El; [|apply nth_error_None in El; lia]. destruct (nth_error (rev c) 0) as [pr|] eqn:Er; [|apply nth_error_None in Er; rewrite rev_length in Er; lia].
  assert (nth_error (left_edge c) 0 = Some pl) as L0 by (unfold left_edge; rewrite L, half, FF by lia; exact El).
  assert (nth_error (right_edge c) 0 = Some pr) as R0 by (unfold right_edge; rewrite L, half, FF by (rewrite rev_length; lia); exact Er).
  rewrite (InterfaceAngleProps.fit_of _ _ _ _ _ _ L0 R0 T1 T2). eexists. split; [reflexivity|]. set (x := InterfaceAngle.segment_angle _).
  assert (fit_angle_from_segment (left_edge c) (right_edge c) = Ok x) as EX by exact (InterfaceAngleProps.fit_of _ _ _ _ _ _ L0 R0 T1 T2).
  assert ((top + top) / (1 + 1) = top) as Emid by (field; intros C; discriminate C).
  exists pl, pr, top. split; [exact El|]. split; [exact Er|]. split; [exists (nth (k - 1) c (0, 0)); split; [apply nth_In; lia|reflexivity]|]. split; [exact Hle|]. split; [|split].
  - intros HX HT0. destruct (InterfaceAngleProps.C71_segment _ _ _ _ _ _ L0 R0 T1 T2 HX) as (rad & t & A1 & A2 & A3 & A4 & A5); [qlra'|]. exists rad, t. split; [exact A1|]. split; [exact A2|]. split; [exact A3|].
    split; [rewrite <- A4; field|]. rewrite EX in A5. injection A5 as A5. exact A5.
  - intros HX. destruct (InterfaceAngleProps.C71_touching _ _ _ _ _ _ L0 R0 T1 T2 HX) as (A1 & A2 & A3). rewrite EX in A1, A2, A3. split; [|split]; intros HH.
    + specialize (A1 ltac:(qlra')). congruence.
    + specialize (A2 ltac:(rewrite HH; ring)). congruence.
    + specialize (A3 ltac:(qlra')). congruence.
  - intros HX. unfold x. rewrite Emid. unfold InterfaceAngle.segment_angle. assert (qeq (fst pr - fst pl) 0 = false) as ->; [|reflexivity].
    apply qeq_false. intros C. apply HX. apply Qcle_antisym; qlra'.
Qed.

Definition good (c : list (Qc * Qc)) : Prop := two_edges c /\ (2 <= length c)%nat /\ rising c.
Lemma loop_total fit height files curves : Forall2 (fun f c => read_interface_file f = Ok (left_edge c, right_edge c)) files curves -> (forall c, In c curves -> good c) ->
  forall c0, exists c, angle_loop fit height c0 files = Ok c.
Proof.
  intros H. induction H as [|f c files curves Hf _ IH]; intros HG c0; [exists c0; reflexivity|]. cbn [angle_loop]. destruct (HG c (or_introl eq_refl)) as (HT & HN & HR).
  assert (exists c1, angle_step fit height c0 f = Ok c1) as (c1 & ->).
  { unfold angle_step. rewrite Hf. cbn [rbind]. destruct (fit_found c HT HN HR) as (x & EX & _). destruct (edges_some c HT HN) as [N1 N2]. destruct (left_lowest c HT HN HR) as [L1 L2].
    assert (exists fits, (if fit then do a <- fit_angle_from_segment (left_edge c) (right_edge c); Ok (InterfaceAngle.fit c0 ++ [a]) else Ok (InterfaceAngle.fit c0)) = Ok fits) as (fits & ->) by (destruct fit; [rewrite EX; eexists; reflexivity|eexists; reflexivity]).
    cbn [rbind]. destruct height as [h|]; [|eexists; reflexivity]. destruct (measure_secant _ false h N1 L1) as (a & -> & _). destruct (measure_secant _ true h N2 L2) as (b & -> & _). eexists. reflexivity. }
  cbn [rbind]. apply IH. intros c' Hc'. apply HG. right. exact Hc'.
Qed.
Lemma rows_are fit height dt files curves c : Forall2 (fun f c => read_interface_file f = Ok (left_edge c, right_edge c)) files curves -> (forall c, In c curves -> good c) ->
  angle_loop fit height none_found files = Ok c ->
  forall i r, nth_error (AngleRunProps.angle_rows fit height dt (length files) c) i = Some r -> exists p, nth_error curves i = Some p /\ row_of fit height (NQ i * dt) p r.
Proof.
  intros HF HG HL i r Hr. unfold AngleRunProps.angle_rows in Hr. rewrite nth_error_map in Hr. destruct (nth_error (seq 0 (length files)) i) as [j|] eqn:Ej; [|discriminate]. cbn [option_map] in Hr. injection Hr as <-.
  assert (i < length files)%nat as Hi by (rewrite <- (seq_length (length files) 0); apply nth_error_Some; congruence).
  rewrite (nth_error_nth' _ 0%nat) in Ej by (rewrite seq_length; exact Hi). rewrite seq_nth in Ej by exact Hi. cbn in Ej. injection Ej as <-.
  destruct (nth_error files i) as [f|] eqn:Ef; [|apply nth_error_None in Ef; lia].
  assert (exists p, nth_error curves i = Some p /\ read_interface_file f = Ok (left_edge p, right_edge p)) as (p & Hp & Hread).
  { clear -HF Ef. revert i Ef. induction HF as [|a b l m Hab HF IH]; intros [|i] E; try discriminate; [injection E as <-; exists b; auto|exact (IH i E)]. }
  destruct (HG p (nth_error_In _ _ Hp)) as (HT & HN & HR). destruct (left_lowest p HT HN HR) as [L1 L2]. destruct (edges_some p HT HN) as [N1 N2].
  exists p. split; [exact Hp|]. destruct (InterfaceAngleProps.C72_series _ _ _ _ HL) as (A1 & A2 & A3 & A4 & A5). destruct (A5 i f Ef) as (l & rr & ER & FF & MM). rewrite Hread in ER. injection ER as <- <-.
  exists (match height with Some _ => [nth i (InterfaceAngle.measured c) None; nth i (InterfaceAngle.left c) None; nth i (InterfaceAngle.right c) None] | None => [] end), (if fit then [nth i (InterfaceAngle.fit c) None] else []).
  split; [reflexivity|]. split; [intros ->; reflexivity|]. split; [|split; [intros ->; reflexivity|]].
  - intros h ->. destruct (MM h eq_refl) as (a & b & Ma & Mb & Na & Nb & v & Nv & Hv). exists v, a, b.
    rewrite (nth_error_nth _ _ None Nv), (nth_error_nth _ _ None Na), (nth_error_nth _ _ None Nb). split; [reflexivity|].
    destruct (measure_secant _ false h N1 L1) as (a' & Ea & Sa). destruct (measure_secant _ true h N2 L2) as (b' & Eb & Sb). rewrite Ma in Ea. rewrite Mb in Eb. injection Ea as <-. injection Eb as <-. auto.
  - intros ->. destruct (FF eq_refl) as (x & Nx & Ex). exists x. rewrite (nth_error_nth _ _ None Nx). split; [reflexivity|]. destruct (fit_found p HT HN HR) as (x' & Ex' & Sx). rewrite Ex in Ex'. injection Ex' as <-. exact Sx.
Qed.
Lemma rounded_rising a : apart a -> rising (rounded a).
Proof. intros H i j Hij Hj. apply rounded_rises; [exact H|exact Hij|]. unfold rounded in Hj. rewrite map_length in Hj. exact Hj. Qed.

(** ** strata interface collect, strata interface angle *)
Theorem C98_collect_angle : forall w dashed d argv1 occs1 base output rec cutoff bins radius ylim b e x n maps arrays argv2 occs2 fit height dt fig save show xlim ylim2 title xlabel ylabel b2 m,
  (* strata interface collect *)
  writes (takes interface_collect_options) argv1 occs1 [base; output] -> not_given occs1 help -> chosen occs1 ["--recenter"] (one_of ["off"; "com"; "zero"]) "zero" rec ->
  chosen occs1 ["-co"; "--cutoff"] (some_of number_text) None cutoff -> chosen occs1 ["-cb"; "--cutoff_bins"] int_text 1%Z bins -> chosen occs1 ["-cr"; "--cutoff_radius"] number_text (ZQ 1) radius ->
  chosen2 occs1 ["--ylim"] number_or_none (None, None) ylim ->
  chosen occs1 ["-b"; "--begin"] (int_from 0) 1%Z b -> chosen occs1 ["-e"; "--end"] (some_of (int_from 0)) None e -> chosen occs1 ["--ext"] as_is ".dat" x ->
  (* the maps and their interfaces *)
  wf d -> (n < w_ffuel w)%nat -> FilesSpec.run_length (fun z => match e with Some l => (z <= l)%Z | None => True end /\ Utils.exists_path d (Formats.os_path (Utils.fname base z x)) = true) b n ->
  (forall j k, (b <= j < k)%Z -> (k < b + Z.of_nat n)%Z -> Formats.os_path (Utils.fname output j ".xvg") <> Formats.os_path (Utils.fname base k x)) ->
  length maps = n -> (forall i mp, nth_error maps i = Some mp -> InterfaceFiles.flow_file (w_fuel w) (Average.content d (Utils.fname base (b + Z.of_nat i) x)) = Ok mp) ->
  Collect.collect_interfaces bM maps cutoff (Some radius) bins ylim None (if String.eqb rec "zero" then Collect.Zero else if String.eqb rec "com" then Collect.Com else Collect.OtherOption) = Ok arrays ->
  (forall a, In a arrays -> apart a) ->
  one_line (InterfaceFiles.e_module (w_env w)) -> one_line (InterfaceFiles.e_date (w_env w)) -> one_line (InterfaceFiles.e_version (w_env w)) -> one_line (InterfaceFiles.e_cwd (w_env w)) ->
  (forall v, one_line (w_repr w v)) -> one_line (txt output) ->
  (* strata interface angle *)
  writes (takes angle_options) argv2 occs2 [output] -> not_given occs2 ["--help"] ->
  switched occs2 ["--fit"] ["--nofit"] false fit -> chosen occs2 ["-h"; "--height"] number_or_none None height -> chosen occs2 ["-dt"; "--delta_t"] number_text (ZQ 1) dt ->
  chosen occs2 ["-o"; "--save_fig"] (some_of as_is) None fig -> chosen occs2 ["-x"; "--save_xvg"] (some_of as_is) None (Some save) ->
  switched occs2 ["--show"] ["--noshow"] false show -> chosen2 occs2 ["--xlim"] number_or_none (None, None) xlim -> chosen2 occs2 ["--ylim"] number_or_none (None, None) ylim2 ->
  chosen occs2 ["--title"] as_is "Contact angles" title -> chosen occs2 ["--xlabel"] as_is "t (ps)" xlabel -> chosen occs2 ["--ylabel"] as_is "angle (deg.)" ylabel ->
  chosen occs2 ["-b"; "--begin"] (int_from 0) 1%Z b2 -> chosen occs2 ["-e"; "--end"] (some_of (int_from 0)) None (Some (b2 + Z.of_nat m - 1)%Z) -> chosen occs2 ["--ext"] as_is ".xvg" ".xvg" ->
  fit = true \/ (exists h, height = Some h /\ h <> 0) -> save <> "" ->
  (b <= b2)%Z -> (b2 + Z.of_nat m <= b + Z.of_nat n)%Z -> (0 < m)%nat ->
  exists d1 d2 saved rows text written, main w dashed d ("interface" :: "collect" :: argv1) = Some (Done d1 [] (Some TypeErr)) /\
    program w dashed d1 ("interface" :: "angle" :: argv2) = Some (Done d2 [] None) /\
    Forall2 (fun a c => stored a (map fst c) (map snd c)) arrays saved /\
    length rows = m /\ (forall i r, nth_error rows i = Some r -> exists c, nth_error saved (Z.to_nat (b2 - b) + i) = Some c /\ row_of fit height (NQ i * dt) c r) /\
    Utils.lookup (Utils.files d2) (Formats.os_path save) = Some (Formats.string_of text) /\
    text = AngleRunProps.angle_text (AngleRunProps.angles_header (header_of w "strata.interface.angle") (w_real w output) (w_repr w (match height with Some h => VNum (Fin h) | None => VNone end))
      b2 (Utils.Upto (b2 + Z.of_nat m - 1)) fit height) rows /\
    (one_line (w_real w output) -> exists table, Table.genfromtxt text = Ok table /\ Forall2 (Forall2 AngleRunProps.reads_as) rows table) /\
    length written = n /\ Permutation (contents d2) (contents d ++ written ++ [Formats.string_of text]).
Proof.
  intros w dashed d argv1 occs1 base output rec cutoff bins radius ylim b e x n maps arrays argv2 occs2 fit height dt fig save show xlim ylim2 title xlabel ylabel b2 m
    W1 H1 Hrec Hco Hcb Hcr Hyl Hb He Hx Hw Hf Hr Hov HL HR HC HA O1 O2 O3 O4 O5 O6 W2 H2 Hfit Hht Hdt Hfig Hsave Hshow Hxl Hyl2 Hti Hxla Hyla Hb2 He2 Hx2 Hdo Hs Hlo Hhi Hm.
  destruct (collected_files w dashed d argv1 occs1 base output rec cutoff bins radius ylim b e x n maps arrays W1 H1 Hrec Hco Hcb Hcr Hyl Hb He Hx Hw Hf Hr Hov HL HR HC O1 O2 O3 O4 O5 O6)
    as (d1 & E1 & Wd1 & LA & R1 & written & LW & PW).
  pose proof (collected_two_edges _ _ _ _ _ _ _ _ HC) as HT. set (s0 := Z.to_nat (b2 - b)). assert (Z.of_nat s0 = b2 - b)%Z as Hs0 by (unfold s0; lia).
  set (saved := map rounded arrays). set (curves := firstn m (skipn s0 saved)). assert (length saved = n) as LS by (unfold saved; rewrite map_length; exact LA).
  assert (forall c, In c curves -> good c) as HG.
  { intros c Hc. apply in_firstn_in, in_skipn_in in Hc. unfold saved in Hc. apply in_map_iff in Hc as (a & <- & Ha). destruct (HT a Ha) as [T1 T2]. split; [apply rounded_two_edges; exact T1|].
    split; [unfold rounded; rewrite map_length; exact T2|apply rounded_rising, HA; exact Ha]. }
  set (fls := map (fun k => Average.content d1 (Utils.fname output k ".xvg")) (FilesSpec.numbers b2 m)). assert (length fls = m) as LF by (unfold fls; rewrite map_length; apply UtilsFiles.numbers_length).
  assert (forall i, (i < m)%nat -> nth_error curves i = nth_error saved (s0 + i)) as NC.
  { intros i Hi. unfold curves. rewrite (window_map saved s0 m []) by lia. rewrite nth_error_map, (nth_error_nth' _ 0%nat) by (rewrite seq_length; exact Hi). rewrite seq_nth by exact Hi. cbn [option_map Nat.add]. symmetry. apply nth_error_nth'. lia. }
  assert (forall i, (i < m)%nat -> exists a, nth_error arrays (s0 + i) = Some a /\ Table.read_columns (Average.content d1 (Utils.fname output (b2 + Z.of_nat i) ".xvg")) = Ok (columns (rounded a))) as RD.
  { intros i Hi. destruct (nth_error arrays (s0 + i)) as [a|] eqn:Ea; [|apply nth_error_None in Ea; lia]. exists a. split; [reflexivity|]. pose proof (R1 _ _ Ea) as R.
    replace (b + Z.of_nat (s0 + i))%Z with (b2 + Z.of_nat i)%Z in R by lia. exact R. }
  assert (Forall2 (fun f c => read_interface_file f = Ok (left_edge c, right_edge c)) fls curves) as HF.
  { assert (fls = map (fun i => Average.content d1 (Utils.fname output (b2 + Z.of_nat i) ".xvg")) (seq 0 m)) as -> by (unfold fls; rewrite numbers_seq, map_map; reflexivity).
    assert (curves = map (fun i => nth (s0 + i) saved []) (seq 0 m)) as EC by (unfold curves; apply window_map; lia). assert (forall i, In i (seq 0 m) -> (i < m)%nat) as HI by (intros i Hi; apply in_seq in Hi; lia).
    rewrite EC. rewrite EC in HG. clear EC NC. revert HI HG. generalize (seq 0 m). intros q HI HG. induction q as [|i q IH]; cbn [map]; constructor; [|apply IH; [intros j Hj; apply HI; right; exact Hj|intros c Hc; apply HG; right; exact Hc]].
    destruct (RD i (HI i (or_introl eq_refl))) as (a & Ea & E). unfold read_interface_file. rewrite E. unfold columns. cbn [rbind].
    assert (nth (s0 + i) saved [] = rounded a) as EN by (apply nth_error_nth; unfold saved; rewrite nth_error_map, Ea; reflexivity). destruct (HG _ (or_introl eq_refl)) as (T & _ & RR). rewrite EN in *. f_equal. apply edges_read; assumption. }
  destruct (loop_total fit height fls curves HF HG none_found) as (c & EL).
  destruct (AngleRunProps.C82_run (w_ffuel w) (header_of w "strata.interface.angle") (w_real w output) (w_repr w (match height with Some h => VNum (Fin h) | None => VNone end)) d1 output fit height dt save
    (files_from b2 (Some (b2 + Z.of_nat m - 1)%Z) ".xvg") m c Wd1 Hs) as (d2 & ER & _ & L2 & _ & P2).
  { lia. }
  { exact Hm. }
  { destruct Hdo as [-> | (h & -> & _)]; [left; reflexivity|right; discriminate]. }
  { cbn [files_from Utils.o_begin Utils.o_end Utils.o_ext]. split.
    - intros k Hk. split; [lia|]. destruct (RD (Z.to_nat k) ltac:(lia)) as (a & _ & E). rewrite Z2Nat.id in E by lia. unfold Utils.exists_path, Average.content in *.
      destruct (Utils.lookup (Utils.files d1) (Formats.os_path (Utils.fname output (b2 + k) ".xvg"))); [reflexivity|discriminate].
    - intros [C _]. lia. }
  { exact EL. }
  cbn [files_from Utils.o_begin Utils.o_end] in L2, P2.
  exists d1, d2, saved, (AngleRunProps.angle_rows fit height dt m c). eexists. exists written. split; [exact E1|]. split.
  { rewrite (C78_interface_angle w dashed d1 argv2 occs2 output fit height dt fig (Some save) show xlim ylim2 title xlabel ylabel b2 (Some (b2 + Z.of_nat m - 1)%Z) ".xvg") by assumption. rewrite ER. reflexivity. }
  split; [exact (rounded_stored arrays)|]. split; [unfold AngleRunProps.angle_rows; rewrite map_length, seq_length; reflexivity|]. split.
  { intros i r Hi. assert (i < m)%nat as Hi' by (rewrite <- (seq_length m 0); rewrite <- (map_length (fun i => Some (QR (NQ i * dt)) :: (match height with Some _ => [nth i (InterfaceAngle.measured c) None; nth i (InterfaceAngle.left c) None; nth i (InterfaceAngle.right c) None] | None => [] end) ++ (if fit then [nth i (InterfaceAngle.fit c) None] else []))); apply nth_error_Some; unfold AngleRunProps.angle_rows in Hi; congruence).
    rewrite <- LF in Hi. destruct (rows_are fit height dt fls curves c HF HG EL i r Hi) as (p & Hp & Row). exists p. split; [rewrite <- NC by exact Hi'; exact Hp|exact Row]. }
  split; [exact L2|]. split; [reflexivity|]. split; [|split; [exact LW|]; rewrite P2, PW; rewrite app_assoc; reflexivity].
  intros OR. apply (AngleRunProps.C82_read_back _ _ (S (match height with Some _ => 3 | None => 0 end + (if fit then 1 else 0)))).
  - apply AngleRunProps.C82_header; [InterfaceFilesProps.lit|exact O2|exact O3|exact OR|apply O5].
  - lia.
  - intros r Hr'. unfold AngleRunProps.angle_rows in Hr'. apply in_map_iff in Hr' as (i & <- & _). cbn [length]. rewrite app_length. destruct height, fit; reflexivity.
Qed.
Print Assumptions C98_collect_angle.

(** ** A concrete pair of commands *)
Example C98_ex : forall w, w_ffuel w = 10%nat -> w_fuel w = 60%nat ->
  one_line (InterfaceFiles.e_module (w_env w)) -> one_line (InterfaceFiles.e_date (w_env w)) -> one_line (InterfaceFiles.e_version (w_env w)) -> one_line (InterfaceFiles.e_cwd (w_env w)) -> (forall v, one_line (w_repr w v)) ->
  exists d1 d2 c r text, main w true InterfaceFilesProps.ex_disk ["interface"; "collect"; "map_"; "out_"; "--recenter"; "off"; "-co"; "4"] = Some (Done d1 [] (Some TypeErr)) /\
    program w true d1 ["interface"; "angle"; "out_"; "--fit"; "-h"; "1"; "-x"; "a.xvg"; "-b"; "2"; "-e"; "2"] = Some (Done d2 [] None) /\
    (exists a, nth_error ex_arrays 1 = Some a /\ stored a (map fst c) (map snd c)) /\ row_of true (Some (ZQ 1)) (NQ 0 * ZQ 1) c r /\
    text = AngleRunProps.angle_text (AngleRunProps.angles_header (header_of w "strata.interface.angle") (w_real w "out_") (w_repr w (VNum (Fin (ZQ 1)))) 2 (Utils.Upto 2) true (Some (ZQ 1))) [r] /\
    Utils.lookup (Utils.files d2) (Formats.os_path "a.xvg") = Some (Formats.string_of text).
Proof.
  intros w Hff Hf O1 O2 O3 O4 O5.
  destruct (C98_collect_angle w true InterfaceFilesProps.ex_disk ["map_"; "out_"; "--recenter"; "off"; "-co"; "4"] [("--recenter", ["off"]); ("-co", ["4"])] "map_" "out_" "off" (Some (ZQ 4)) 1 (ZQ 1) (None, None) 1 None ".dat"
    2 InterfaceFilesProps.file_maps ex_arrays ["out_"; "--fit"; "-h"; "1"; "-x"; "a.xvg"; "-b"; "2"; "-e"; "2"] [("--fit", []); ("-h", ["1"]); ("-x", ["a.xvg"]); ("-b", ["2"]); ("-e", ["2"])] true (Some (ZQ 1)) (ZQ 1) None "a.xvg" false
    (None, None) (None, None) "Contact angles" "t (ps)" "angle (deg.)" 2 1) as (d1 & d2 & saved & rows & text & written & E1 & E2 & HS & L & HR & HL & HT & _ & _ & _).
  - apply (writes_ext (arity interface_collect_cmd)); [intros f; exact (arity_flatten interface_collect_cmd f)|]. apply scan_writes; reflexivity.
  - not_there.
  - left. exists "--recenter", "off". split; [split; [cbn; auto|eexists [], _; split; [reflexivity|not_there]]|]. split; [cbn; auto|reflexivity].
  - left. exists "-co", "4". split; [split; [cbn; auto|eexists [("--recenter", ["off"])], []; split; [reflexivity|not_there]]|]. exists (ZQ 4). split; [|reflexivity]. apply py_float_iff. vm_compute. reflexivity.
  - not_said.
  - not_said.
  - not_said.
  - not_said.
  - not_said.
  - not_said.
  - repeat constructor; cbn; intuition discriminate.
  - rewrite Hff. lia.
  - exact InterfaceFilesProps.ex_run.
  - intros j k Hj Hk. assert (j = 1 /\ k = 2)%Z as [-> ->] by lia. vm_compute. discriminate.
  - reflexivity.
  - rewrite Hf. exact InterfaceFilesProps.ex_reads.
  - change (String.eqb "off" "zero") with false. change (String.eqb "off" "com") with false. cbv iota. unfold ex_arrays.
    assert (exists a, Collect.collect_interfaces bM InterfaceFilesProps.file_maps (Some (ZQ 4)) (Some (ZQ 1)) 1 (None, None) None Collect.OtherOption = Ok a) as (a & ->); [|reflexivity].
    eexists. vm_compute. reflexivity.
  - exact ex_apart.
  - exact O1.
  - exact O2.
  - exact O3.
  - exact O4.
  - exact O5.
  - InterfaceFilesProps.lit.
  - apply (writes_ext (arity interface_angle_cmd)); [intros f; rewrite arity_flatten; symmetry; apply angle_takes|]. apply scan_writes; reflexivity.
  - not_there.
  - left. exists "--fit". split; [split; [cbn; auto|eexists [], _; split; [reflexivity|not_there]]|]. cbn. tauto.
  - left. exists "-h", "1". split; [split; [cbn; auto|eexists [("--fit", [])], _; split; [reflexivity|not_there]]|]. left. exists (ZQ 1). split; [|reflexivity]. apply py_float_iff. vm_compute. reflexivity.
  - not_said.
  - not_said.
  - left. exists "-x", "a.xvg". split; [split; [cbn; auto|eexists [("--fit", []); ("-h", ["1"])], _; split; [reflexivity|not_there]]|]. exists "a.xvg". split; reflexivity.
  - not_said.
  - not_said.
  - not_said.
  - not_said.
  - not_said.
  - not_said.
  - left. exists "-b", "2". split; [split; [cbn; auto|eexists [("--fit", []); ("-h", ["1"]); ("-x", ["a.xvg"])], _; split; [reflexivity|not_there]]|]. split; [|lia]. apply py_int_iff. vm_compute. reflexivity.
  - left. exists "-e", "2". split; [split; [cbn; auto|eexists [("--fit", []); ("-h", ["1"]); ("-x", ["a.xvg"]); ("-b", ["2"])], []; split; [reflexivity|not_there]]|]. exists 2%Z. split; [|reflexivity]. split; [|lia]. apply py_int_iff. vm_compute. reflexivity.
  - not_said.
  - left. reflexivity.
  - discriminate.
  - lia.
  - lia.
  - lia.
  - destruct rows as [|r [|]]; try discriminate L. destruct (HR 0%nat r eq_refl) as (c & Hc & Row). exists d1, d2, c, r, text. split; [exact E1|]. split; [exact E2|]. split; [|split; [exact Row|split; [exact HT|exact HL]]].
    destruct (Forall2_nth_r _ _ _ _ _ HS Hc) as (a & Ha & Hs). exists a. split; [exact Ha|exact Hs].
Qed.
