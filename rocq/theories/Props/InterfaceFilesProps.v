(** Properties C68-C69: files of collected interfaces. *)
From Coq Require Import String Ascii Permutation.
From Verif.Base Require Import QcX Res Np Bytes.
From Verif.Model Require Utils Bins Flow Interface Spreading Collect Average InterfaceSample.
From Verif.Model Require Import Bins Text Gmx Simple Formats Table InterfaceFiles.
From Verif.Spec Require Import FilesSpec DiskSpec TableSpec CollectSpec PolygonSpec.
From Verif.Proofs Require Import UtilsFiles UtilsDisk UtilsTop TextP SimpleP FormatsP TableP CollectP CollectRunP InterfaceFilesP.
From Verif.Props Require CollectProps InterfaceSampleProps.
Import Utils(disk, path, files, lookup, fopts, exists_path, fname, bound, Upto, Inf, o_begin, o_end, o_ext, o_outext).
Local Open Scope list_scope.
Local Notation length := List.length.

(** ** C68 *)
(** A text without line breaks. *)
Definition one_line (t : bytes) : Prop := Forall (fun b => code b <> 10 /\ code b <> 13)%Z t.
(** The columns [xs], [ys] hold the points, each number rounded to the nearest one of three decimals. *)
Definition stored (pts : list (Qc * Qc)) (xs ys : list Qc) : Prop :=
  Forall2 (nearest_decimal 3) (map fst pts) xs /\ Forall2 (nearest_decimal 3) (map snd pts) ys.
Lemma stored_round pts : stored pts (map (fun p => round_dec 3 (fst p)) pts) (map (fun p => round_dec 3 (snd p)) pts).
Proof. split; induction pts as [|p pts IH]; cbn [map]; constructor; try apply round_dec_nearest; exact IH. Qed.

(** What is written is read back: the same number of points in the same order, to three decimals. *)
Theorem C68_read_back : forall header pts, Forall comment_line header -> (2 <= length pts)%nat ->
  exists xs ys, read_columns (Some (interface_text header pts)) = Ok (xs, ys) /\ stored pts xs ys.
Proof. intros header pts Hh Hl. eexists. eexists. split; [exact (two_columns_read header pts Hh Hl)|apply stored_round]. Qed.
Print Assumptions C68_read_back.
(** Numbers of three decimals are read back exactly, others within 0.0005; order is never reversed. *)
Theorem C68_exact : forall header pts, Forall comment_line header -> (2 <= length pts)%nat ->
  (forall p, In p pts -> exists m n, p = (ZQ m / ZQ 1000, ZQ n / ZQ 1000)) ->
  read_columns (Some (interface_text header pts)) = Ok (map fst pts, map snd pts).
Proof.
  intros header pts Hh Hl HE. unfold interface_text. rewrite (two_columns_read header pts Hh Hl). f_equal. f_equal; apply map_ext_in; intros p Hp;
    destruct (HE p Hp) as (m & n & ->); cbn [fst snd]; change (ZQ 1000) with (ZQ (10 ^ Z.of_nat 3)); apply round_dec_ZQ.
Qed.
Print Assumptions C68_exact.
Theorem C68_error : forall header pts xs ys, Forall comment_line header -> (2 <= length pts)%nat ->
  read_columns (Some (interface_text header pts)) = Ok (xs, ys) ->
  forall i p x y, nth_error pts i = Some p -> nth_error xs i = Some x -> nth_error ys i = Some y ->
    qabs (x - fst p) <= Q2Qc (1 # 2000) /\ qabs (y - snd p) <= Q2Qc (1 # 2000).
Proof.
  intros header pts xs ys Hh Hl E i p x y Hp Hx Hy. unfold interface_text in E. rewrite (two_columns_read header pts Hh Hl) in E. injection E as <- <-.
  rewrite nth_error_map, Hp in Hx, Hy. injection Hx as <-. injection Hy as <-.
  assert (Q2Qc (1 # 2) / ZQ (10 ^ Z.of_nat 3) = Q2Qc (1 # 2000)) as <- by (apply Qc_is_canon; reflexivity). split; apply round_dec_near.
Qed.
Print Assumptions C68_error.
Theorem C68_order : forall header pts xs ys, Forall comment_line header -> (2 <= length pts)%nat ->
  read_columns (Some (interface_text header pts)) = Ok (xs, ys) ->
  forall i j p q, nth_error pts i = Some p -> nth_error pts j = Some q ->
    (fst p <= fst q -> nth i xs 0 <= nth j xs 0) /\ (snd p <= snd q -> nth i ys 0 <= nth j ys 0) /\
    (fst p = fst q -> nth i xs 0 = nth j xs 0) /\ (snd p = snd q -> nth i ys 0 = nth j ys 0).
Proof.
  intros header pts xs ys Hh Hl E i j p q Hp Hq. unfold interface_text in E. rewrite (two_columns_read header pts Hh Hl) in E. injection E as <- <-.
  assert (forall f : Qc * Qc -> Qc, forall i p, nth_error pts i = Some p -> nth i (map f pts) 0 = f p) as N.
  { intros f k r Hk. apply nth_error_nth. rewrite nth_error_map, Hk. reflexivity. }
  rewrite !(N _ _ _ Hp), !(N _ _ _ Hq). split; [apply round_dec_mono|]. split; [apply round_dec_mono|]. split; intros ->; reflexivity.
Qed.
Print Assumptions C68_order.
Ltac lit := unfold one_line; cbn; repeat (constructor; [split; vm_compute; discriminate|]); constructor.
Ltac line C C0 Q :=
  match goal with
  | |- comment_line (txt ?s ++ ?t) => apply (C (tl (txt s)) t); [lit|first [assumption|apply Q; assumption]]
  | |- comment_line (txt ?s) => apply (C0 (tl (txt s))); lit
  end.
(** The header that is written is ignored by the reader if none of the texts in it has a line break. *)
Theorem C68_header : forall e names opts,
  one_line (e_module e) -> one_line (e_date e) -> one_line (e_version e) -> one_line (e_cwd e) -> Forall one_line names ->
  match opts with Some (a, b, c, d) => one_line a /\ one_line b /\ one_line c /\ one_line d | None => True end ->
  Forall comment_line (interface_header e names opts).
Proof.
  intros e names opts H1 H2 H3 H4 HN HO.
  assert (forall s t, one_line s -> one_line t -> comment_line (chr 35 :: s ++ t)) as C.
  { intros s t Hs Ht. exists (s ++ t). split; [reflexivity|]. apply Forall_app. split; assumption. }
  assert (forall s, one_line s -> comment_line (chr 35 :: s)) as C0 by (intros s Hs; exists s; split; [reflexivity|exact Hs]).
  assert (forall t, one_line t -> one_line (quoted t)) as Q.
  { intros t Ht. unfold quoted, one_line. apply Forall_app. split; [repeat constructor; vm_compute; discriminate|]. apply Forall_app. split; [exact Ht|repeat constructor; vm_compute; discriminate]. }
  unfold interface_header. repeat (apply Forall_app; split); try (repeat constructor; fail).
  - repeat (apply Forall_cons; [line C C0 Q|]). apply Forall_nil.
  - induction HN as [|n names Hn HN IH]; cbn [map]; constructor; [apply (C (tl (txt "#   "))); [lit|apply Q; exact Hn]|exact IH].
  - apply Forall_cons; [apply (C0 (tl (txt "# "))); lit|apply Forall_nil].
  - destruct opts as [[[[a b] c] d]|].
    + destruct HO as (Ha & Hb & Hc & Hd).
      repeat (apply Forall_cons; [line C C0 Q|]). apply Forall_nil.
    + repeat (apply Forall_cons; [line C C0 Q|]). apply Forall_nil.
  - apply Forall_cons; [line C C0 Q|apply Forall_nil].
Qed.
Print Assumptions C68_header.
(** Refuted without that condition, as names are put in the header as they are: the rest of the name is read as a point of the interface. *)
Theorem C68_name_refuted : exists e name pts, length pts = 2%nat /\
  read_columns (Some (interface_text (interface_header e [name] None) pts)) = Ok (ZQ 7 :: map fst pts, ZQ 8 :: map snd pts).
Proof.
  exists (mkEnv [] [] [] []), (txt "out" ++ nl ++ txt "7 8 #"), [(1, ZQ 2); (ZQ 3, ZQ 4)]. split; [reflexivity|]. vm_compute. reflexivity.
Qed.
Print Assumptions C68_name_refuted.
(** A file with a single point cannot be read as two columns. *)
Theorem C68_single_point : forall header p, Forall comment_line header -> read_columns (Some (interface_text header [p])) = Err TypeErr.
Proof.
  intros header p Hh. unfold interface_text, read_columns, unpack2. rewrite (table_read header _ 2); [reflexivity|exact Hh|lia|].
  intros r [<- |[]]. reflexivity.
Qed.
Print Assumptions C68_single_point.
Theorem C68_no_points : forall header, Forall comment_line header -> read_columns (Some (interface_text header [])) = Err ValueErr.
Proof.
  intros header Hh. unfold interface_text, read_columns, unpack2. rewrite (table_read header _ 2); [reflexivity|exact Hh|lia|intros r []].
Qed.
Print Assumptions C68_no_points.
Theorem C68_no_file : read_columns None = Err OSErr.
Proof. reflexivity. Qed.
Print Assumptions C68_no_file.
Definition ex_env : env := mkEnv (txt "strata.interface.collect") (txt "Mon Jan  1 12:00:00 2018") (txt "0.5") (txt "/home/user").
Definition ex_hdr (name : string) : list bytes :=
  interface_header ex_env [bytes_of name] (Some (txt "None", txt "4", txt "1", txt "1")).
Example C68_ex : read_columns (Some (interface_text (ex_hdr "out_00001.xvg") [(Q2Qc (-1 # 3), 0); (Q2Qc (2 # 3), Q2Qc (1 # 4))])) =
  Ok ([Q2Qc (-333 # 1000); Q2Qc (667 # 1000)], [0; Q2Qc (1 # 4)]) /\ Forall comment_line (ex_hdr "out_00001.xvg").
Proof.
  split; [vm_compute; reflexivity|]. unfold ex_hdr. apply C68_header; [lit|lit|lit|lit|apply Forall_cons; [lit|apply Forall_nil]|]. repeat split; lit.
Qed.

(** ** C69 *)
(** What is known of the map of a file: its records and its grid; the number of bins is that of the grid. *)
Theorem C69_map_of_file : forall fuel f b fi, flow_file fuel f = Ok (b, fi) -> exists dict g nx ny dx dy,
  read_data_file fuel f = Ok (dict, g) /\ m_shape g = (nx, ny) /\ m_spacing g = (Fin dx, Fin dy) /\
  Flow.f_shape fi = Some (Z.of_nat nx, Z.of_nat ny) /\ Flow.f_spacing fi = Some (dx, dy) /\ Flow.f_origin fi = Some (m_origin g) /\
  Flow.f_num fi = Some (Z.of_nat (nx * ny)).
Proof.
  intros fuel f b fi H. unfold flow_file in H. destruct (read_data_file fuel f) as [[dict g]|] eqn:E; [|discriminate]. cbn [rbind] in H.
  destruct (finite_dict dict) as [d'|]; [|discriminate]. cbn [rbind] in H. unfold finite_info in H. destruct g as [[nx ny] [dx dy] o]. cbn [m_spacing m_shape m_origin fst snd] in *.
  destruct dx as [dx| | |]; try discriminate. cbn [finite rbind] in H. destruct dy as [dy| | |]; try discriminate. cbn [finite rbind] in H.
  destruct (Average.bins_of_dict d') as [b'|]; [|discriminate]. cbn [rbind] in H. injection H as _ <-. exists dict, (mkMinfo (nx, ny) (Fin dx, Fin dy) o), nx, ny, dx, dy.
  cbn. rewrite Nat2Z.inj_mul. repeat (split; [reflexivity|]). reflexivity.
Qed.
Print Assumptions C69_map_of_file.
(** The run over all files of the base.  Every frame of the unbroken run gets an output of the same number with the interface of
    its map; no other file changes and no content is lost.  Read as a series, the outputs are the interfaces in their order. *)
Theorem C69_files : forall ffuel fuel hdr cutoff radius nb lims o d base output fo n maps arrays, wf d ->
  let begin := match o_begin fo with Some b => b | None => 1%Z end in
  let e := match o_end fo with Some e => e | None => Inf end in
  let ext := match o_ext fo with Some x => x | None => ".dat"%string end in
  let outext := match o_outext fo with Some x => x | None => ".xvg"%string end in
  let src k := os_path (fname base k ext) in let dst k := os_path (fname output k outext) in
  no_slash outext -> (n < ffuel)%nat ->
  run_length (fun z => match e with Upto m => (z <= m)%Z | Inf => True end /\ exists_path d (src z) = true) begin n ->
  (forall j k, (begin <= j < k)%Z -> (k < begin + Z.of_nat n)%Z -> dst j <> src k) ->
  length maps = n ->
  (forall i mp, nth_error maps i = Some mp -> flow_file fuel (Average.content d (fname base (begin + Z.of_nat i) ext)) = Ok mp) ->
  (forall k, (begin <= k < begin + Z.of_nat n)%Z -> Forall comment_line (hdr (fname output k outext))) ->
  Collect.collect_interfaces bM maps cutoff radius nb lims None o = Ok arrays ->
  exists d', collect_files ffuel fuel hdr cutoff radius nb lims o d base output fo = (d', None) /\ wf d' /\ length arrays = n /\
    (forall i a, nth_error arrays i = Some a -> exists xs ys, read_columns (Average.content d' (fname output (begin + Z.of_nat i) outext)) = Ok (xs, ys) /\ stored a xs ys) /\
    (forall q, exists_path d q = true -> (forall k, (begin <= k < begin + Z.of_nat n)%Z -> q <> dst k) -> lookup (files d') q = lookup (files d) q) /\
    (exists written, length written = n /\ Permutation (contents d') (contents d ++ written)) /\
    exists series, read_interfaces ffuel d' output {| o_begin := Some begin; o_end := Some (Upto (begin + Z.of_nat n - 1)); o_ext := Some outext; o_outext := None |} = Ok series /\
      Forall2 (fun a r => exists xs ys, r = Ok (xs, ys) /\ stored a xs ys) arrays series.
Proof.
  intros ffuel fuel hdr cutoff radius nb lims o d base output fo n maps arrays Hw begin e ext outext src dst Hs Hf Hr Hov HL HR HH HC.
  rewrite with_state_fst in HC. destruct (with_state cutoff radius nb lims o maps None) as [[arr st]|] eqn:HS; [|discriminate]. cbn in HC. injection HC as ->.
  destruct (collect_frames ffuel fuel hdr cutoff radius nb lims o d base output fo n n maps arrays st Hw Hs Hf Hr Hov (le_n n) HL HR HS) as (d' & E & Hw' & R & O & PW).
  fold begin ext outext in E, R, O. fold dst in O. rewrite Nat.sub_diag in E. cbn [numbers map collect_loop] in E.
  pose proof (with_state_length _ _ _ _ _ _ _ _ _ HS) as LA. rewrite HL in LA.
  assert (forall i a, nth_error arrays i = Some a -> exists xs ys, read_columns (Average.content d' (fname output (begin + Z.of_nat i) outext)) = Ok (xs, ys) /\ stored a xs ys) as RB.
  { intros i a Ha. unfold Average.content. rewrite (R i a Ha). cbn [option_map]. rewrite bytes_string. apply C68_read_back; [apply HH; assert (i < length arrays)%nat by (apply nth_error_Some; rewrite Ha; discriminate); lia|].
    apply (with_state_points _ _ _ _ _ _ _ _ _ HS). apply nth_error_In with i. exact Ha. }
  exists d'. split; [exact E|]. split; [exact Hw'|]. split; [exact LA|]. split; [exact RB|]. split; [exact O|]. split; [exact PW|].
  unfold read_interfaces. cbn [o_begin o_end o_ext Utils.dflt]. unfold Utils.find_datamap_singles.
  rewrite (yield_singles_run _ _ _ _ n); [| |exact Hf].
  2:{ split; [|intros [C _]; cbn in C; lia].
      intros k Hk. split; [cbn; lia|]. unfold exists_path. destruct (nth_error arrays (Z.to_nat k)) as [a|] eqn:Ek; [|apply nth_error_None in Ek; lia].
      pose proof (R _ _ Ek) as Rk. rewrite Z2Nat.id in Rk by lia. rewrite Rk. reflexivity. }
  cbn [rbind]. eexists. split; [reflexivity|]. rewrite map_map.
  clear - RB LA. revert n LA RB. generalize begin as b. clear begin. induction arrays as [|a arrays IH]; intros b n <- RB; cbn [length numbers map]; constructor.
  - destruct (RB 0%nat a eq_refl) as (xs & ys & H). rewrite Z.add_0_r in H. exists xs, ys. exact H.
  - apply IH; [reflexivity|]. intros i a' Hi. replace (b + 1 + Z.of_nat i)%Z with (b + Z.of_nat (S i))%Z by lia. apply RB. exact Hi.
Qed.
Print Assumptions C69_files.
(** If the map of frame [m] cannot be read, or has no interface, the run ends with its exception: the outputs of the frames before it
    are written, nothing else is. *)
Theorem C69_failing_frame : forall ffuel fuel hdr cutoff radius nb lims o d base output fo n m maps arrays err, wf d ->
  let begin := match o_begin fo with Some b => b | None => 1%Z end in
  let e := match o_end fo with Some e => e | None => Inf end in
  let ext := match o_ext fo with Some x => x | None => ".dat"%string end in
  let outext := match o_outext fo with Some x => x | None => ".xvg"%string end in
  let src k := os_path (fname base k ext) in let dst k := os_path (fname output k outext) in
  no_slash outext -> (n < ffuel)%nat ->
  run_length (fun z => match e with Upto m => (z <= m)%Z | Inf => True end /\ exists_path d (src z) = true) begin n ->
  (forall j k, (begin <= j < k)%Z -> (k < begin + Z.of_nat n)%Z -> dst j <> src k) ->
  (m < n)%nat -> length maps = m ->
  (forall i mp, nth_error maps i = Some mp -> flow_file fuel (Average.content d (fname base (begin + Z.of_nat i) ext)) = Ok mp) ->
  (forall k, (begin <= k < begin + Z.of_nat n)%Z -> Forall comment_line (hdr (fname output k outext))) ->
  Collect.collect_interfaces bM maps cutoff radius nb lims None o = Ok arrays ->
  (let next := flow_file fuel (Average.content d (fname base (begin + Z.of_nat m) ext)) in
   next = Err err \/ exists mp, next = Ok mp /\ Collect.collect_interfaces bM (maps ++ [mp]) cutoff radius nb lims None o = Err err) ->
  exists d', collect_files ffuel fuel hdr cutoff radius nb lims o d base output fo = (d', Some err) /\ wf d' /\ length arrays = m /\
    (forall i a, nth_error arrays i = Some a -> exists xs ys, read_columns (Average.content d' (fname output (begin + Z.of_nat i) outext)) = Ok (xs, ys) /\ stored a xs ys) /\
    (forall q, exists_path d q = true -> (forall k, (begin <= k < begin + Z.of_nat m)%Z -> q <> dst k) -> lookup (files d') q = lookup (files d) q) /\
    exists written, length written = m /\ Permutation (contents d') (contents d ++ written).
Proof.
  intros ffuel fuel hdr cutoff radius nb lims o d base output fo n m maps arrays err Hw begin e ext outext src dst Hs Hf Hr Hov Hm HL HR HH HC HE.
  rewrite with_state_fst in HC. destruct (with_state cutoff radius nb lims o maps None) as [[arr st]|] eqn:HS; [|discriminate]. cbn in HC. injection HC as ->.
  destruct (collect_frames ffuel fuel hdr cutoff radius nb lims o d base output fo n m maps arrays st Hw Hs Hf Hr Hov (Nat.lt_le_incl _ _ Hm) HL HR HS) as (d' & E & Hw' & R & O & PW).
  fold begin ext outext in E, R, O. fold dst in O.
  pose proof (with_state_length _ _ _ _ _ _ _ _ _ HS) as LA. rewrite HL in LA.
  exists d'. split.
  - rewrite E. destruct (n - m)%nat as [|r] eqn:Er; [lia|]. cbn [numbers map collect_loop].
    assert (Average.content d' (fname base (begin + Z.of_nat m) ext) = Average.content d (fname base (begin + Z.of_nat m) ext)) as ->.
    { unfold Average.content. rewrite O; [reflexivity|destruct Hr as [Hr _]; exact (proj2 (Hr (Z.of_nat m) ltac:(lia)))|].
      intros k Hk C. apply (Hov k (begin + Z.of_nat m)%Z); [lia|lia|]. symmetry. exact C. }
    destruct HE as [-> | ([b fi] & -> & HE)]; [reflexivity|]. cbn [rbind].
    rewrite with_state_fst, with_state_app, HS in HE. cbn [rbind with_state] in HE.
    destruct (Collect.get_interface_coordinates bM b fi cutoff radius nb lims st o) as [[a' st']|err']; cbn in HE; [discriminate|]. injection HE as <-. reflexivity.
  - split; [exact Hw'|]. split; [exact LA|]. split; [|split; [exact O|exact PW]].
    intros i a Ha. unfold Average.content. rewrite (R i a Ha). cbn [option_map]. rewrite bytes_string. apply C68_read_back; [apply HH; assert (i < length arrays)%nat by (apply nth_error_Some; rewrite Ha; discriminate); lia|].
    apply (with_state_points _ _ _ _ _ _ _ _ _ HS). apply nth_error_In with i. exact Ha.
Qed.
Print Assumptions C69_failing_frame.
(** ** From the droplet to the areas sampled from the files *)
(** A number with three decimals. *)
Definition decimals3 (x : Qc) : Prop := exists m, x = ZQ m / ZQ 1000.
Lemma nearest_exact x y : decimals3 x -> nearest_decimal 3 x y -> y = x.
Proof.
  intros (m & ->) [_ H]. specialize (H m). change (10 ^ Z.of_nat 3)%Z with 1000%Z in H.
  replace (ZQ m / ZQ 1000 - ZQ m / ZQ 1000) with 0 in H by ring. change (qabs 0) with 0 in H. apply qabs_le in H. destruct H as [H1 H2]. revert H1 H2. generalize (ZQ m / ZQ 1000). intros z H1 H2. apply Qcle_antisym; qlra'.
Qed.
Lemma stored_exact pts xs ys : (forall p, In p pts -> decimals3 (fst p) /\ decimals3 (snd p)) -> stored pts xs ys -> xs = map fst pts /\ ys = map snd pts.
Proof.
  intros HD [HX HY]. revert xs ys HX HY. induction pts as [|p pts IH]; intros xs ys HX HY; cbn [map] in *.
  - inversion HX. inversion HY. split; reflexivity.
  - inversion HX as [|? x ? xs' Nx HX']; subst. inversion HY as [|? y ? ys' Ny HY']; subst. destruct (HD p (or_introl eq_refl)) as [D1 D2].
    destruct (IH (fun q Hq => HD q (or_intror Hq)) xs' ys' HX' HY') as [-> ->]. rewrite (nearest_exact _ _ D1 Nx), (nearest_exact _ _ D2 Ny). split; reflexivity.
Qed.
(** If the maps show a droplet which moves without jumps (C34), with three decimals in all positions, the areas sampled from the written
    files are those of the true droplet. *)
Theorem C69_true_areas : forall ffuel fuel hdr cutoff radius nb lims d base output fo n maps frames box y0 h dt, wf d ->
  let begin := match o_begin fo with Some b => b | None => 1%Z end in
  let e := match o_end fo with Some e => e | None => Inf end in
  let ext := match o_ext fo with Some x => x | None => ".dat"%string end in
  let outext := match o_outext fo with Some x => x | None => ".xvg"%string end in
  let src k := os_path (fname base k ext) in let dst k := os_path (fname output k outext) in
  no_slash outext -> (n < ffuel)%nat ->
  run_length (fun z => match e with Upto m => (z <= m)%Z | Inf => True end /\ exists_path d (src z) = true) begin n ->
  (forall j k, (begin <= j < k)%Z -> (k < begin + Z.of_nat n)%Z -> dst j <> src k) ->
  length maps = n ->
  (forall i mp, nth_error maps i = Some mp -> flow_file fuel (Average.content d (fname base (begin + Z.of_nat i) ext)) = Ok mp) ->
  (forall k, (begin <= k < begin + Z.of_nat n)%Z -> Forall comment_line (hdr (fname output k outext))) ->
  0 < box -> 0 < h -> Forall2 (CollectProps.map_shows bM cutoff radius nb lims box y0 h) maps frames ->
  Forall (CollectProps.droplet box y0 h) frames -> CollectProps.starts_in_a_box box frames -> frame_steps box frames ->
  decimals3 box -> decimals3 h -> (forall f p, In f frames -> In p (snd f) -> decimals3 (fst p) /\ decimals3 (snd p)) ->
  exists d' series rows, collect_files ffuel fuel hdr cutoff radius nb lims Collect.OtherOption d base output fo = (d', None) /\
    read_interfaces ffuel d' output {| o_begin := Some begin; o_end := Some (Upto (begin + Z.of_nat n - 1)); o_ext := Some outext; o_outext := None |} = Ok series /\
    InterfaceSample.sample_areas (map (fun r => match r with Ok c => Some c | Err _ => None end) series) dt = Ok rows /\
    length rows = n /\
    forall i f, nth_error frames i = Some f -> exists a, nth_error rows i = Some (NQ i * dt, a) /\
      (1 + 1) * a = - twice_area (polygon (InterfaceSampleProps.true_layers h (snd f))).
Proof.
  intros ffuel fuel hdr cutoff radius nb lims d base output fo n maps frames box y0 h dt Hw begin e ext outext src dst Hs Hf Hr Hov HL HR HH Hb Hh HS HD H1 HFS [bm Hbm] [hm Hhm] HP.
  destruct (CollectProps.C34_continuous_partial bM cutoff radius nb lims box y0 h maps frames Hb Hh HS HD H1 HFS) as (c & HC).
  destruct (C69_files ffuel fuel hdr cutoff radius nb lims Collect.OtherOption d base output fo n maps _ Hw Hs Hf Hr Hov HL HR HH HC) as (d' & E & _ & LA & _ & _ & _ & series & ES & HF).
  fold begin outext in ES. exists d', series.
  set (curve := fun f : truth => closed_curve h (moved (ZQ c * box) (snd f))) in *.
  assert (forall f, In f frames -> forall p, In p (curve f) -> decimals3 (fst p) /\ decimals3 (snd p)) as HDec.
  { intros f Hin p Hp. unfold curve, closed_curve in Hp. apply in_app_iff in Hp.
    assert (forall i, decimals3 (ZQ (Z.of_nat i) * h)) as DH. { intros i. exists (Z.of_nat i * hm)%Z. rewrite Hhm, ZQ_mul. unfold Qcdiv. ring. }
    assert (forall i g, (i < length (snd f))%nat -> (g = fst \/ g = snd) -> decimals3 (g (nth i (moved (ZQ c * box) (snd f)) (0, 0)))) as DX.
    { intros i g Hi Hg. unfold moved. set (mv := fun p : Qc * Qc => (fst p + ZQ c * box, snd p + ZQ c * box)). rewrite (nth_indep _ (0, 0) (mv (0, 0))) by (rewrite map_length; exact Hi). rewrite (map_nth mv). unfold mv.
      destruct (HP f (nth i (snd f) (0, 0)) Hin (nth_In _ _ Hi)) as [[m1 D1] [m2 D2]].
      destruct Hg as [-> | ->]; cbn [fst snd]; [rewrite D1; exists (m1 + c * bm)%Z|rewrite D2; exists (m2 + c * bm)%Z]; rewrite Hbm, ZQ_add, ZQ_mul; unfold Qcdiv; ring. }
    unfold moved in Hp. rewrite map_length in Hp. fold (moved (ZQ c * box) (snd f)) in Hp.
    destruct Hp as [Hp|Hp]; [|apply in_rev in Hp]; apply in_map_iff in Hp; destruct Hp as (i & <- & Hi); apply in_seq in Hi; cbn [fst snd]; (split; [apply DX; [lia|auto]|apply DH]). }
  assert (exists rows, InterfaceSample.sample_areas (map (fun r => match r with Ok c => Some c | Err _ => None end) series) dt = Ok rows /\ length rows = length frames /\
     forall i f, nth_error frames i = Some f -> exists a, nth_error rows i = Some (NQ i * dt, a) /\ (1 + 1) * a = - twice_area (polygon (InterfaceSampleProps.true_layers h (snd f)))) as (rows & ER & LR & HRows).
  2:{ exists rows. split; [exact E|]. split; [exact ES|]. split; [exact ER|]. split; [rewrite LR, <- LA, map_length; reflexivity|exact HRows]. }
  unfold InterfaceSample.sample_areas. clear - HF HDec.
  assert (forall k, exists rows, InterfaceSample.sample_loop InterfaceSample.get_area_of_interface (map (fun r => match r with Ok c => Some c | Err _ => None end) series) k dt = Ok rows /\ length rows = length frames /\
     forall i f, nth_error frames i = Some f -> exists a, nth_error rows i = Some (NQ (k + i) * dt, a) /\ (1 + 1) * a = - twice_area (polygon (InterfaceSampleProps.true_layers h (snd f)))) as G.
  { revert series HF. induction frames as [|f frames IH]; intros series HF k.
    - inversion HF; subst. exists []. split; [reflexivity|]. split; [reflexivity|]. intros [|i]; discriminate.
    - cbn [map] in HF. inversion HF as [|? r ? series' Hr HF']; subst. destruct Hr as (xs & ys & -> & HSt).
      destruct (stored_exact _ _ _ (HDec f (or_introl eq_refl)) HSt) as [-> ->].
      destruct (IH (fun g Hg => HDec g (or_intror Hg)) series' HF' (S k)) as (rows & ER & LR & HRows).
      destruct (InterfaceSampleProps.C36_polygon_area (InterfaceSampleProps.true_layers h (snd f))) as (a & EA & HA).
      pose proof (InterfaceSampleProps.C36_collected h (ZQ c * box) (snd f)) as EC. rewrite EA in EC. unfold InterfaceSampleProps.area_of in EC.
      cbn [map InterfaceSample.sample_loop]. unfold curve. rewrite EC, ER. cbn [rbind]. eexists. split; [reflexivity|]. split; [cbn [length]; rewrite LR; reflexivity|].
      intros [|i] g Hg; cbn [nth_error] in Hg |- *; [injection Hg as <-; exists a; rewrite Nat.add_0_r; auto|].
      destruct (HRows i g Hg) as (a' & Ha' & HA'). exists a'. replace (k + S i)%nat with (S k + i)%nat by lia. auto. }
  exact (G 0%nat).
Qed.
Print Assumptions C69_true_areas.

(** ** A concrete run: two maps in plain files, the droplet moves across the boundary. *)
Definition ex_file (rows : list (list Z)) : string :=
  let b := concat (map (fun i => map (fun j => CollectProps.mb (Z.of_nat i) (Z.of_nat j) (nth i (nth j rows []) 0%Z)) (seq 0 (length rows))) (seq 0 6)) in
  match simple_write false [("X", map bX b); ("Y", map bY b); ("N", map bN b); ("T", map bT b); ("M", map bM b); ("U", map bU b); ("V", map bV b)]%string with
  | Ok f => string_of f | Err _ => ""%string end.
Definition ex_disk : disk := {| files := [(os_path "map_00001.dat", ex_file [[0; 0; 5; 5; 5; 0]; [0; 0; 0; 5; 5; 0]]%Z); (os_path "map_00002.dat", ex_file [[5; 0; 0; 0; 5; 5]; [0; 0; 0; 0; 5; 5]]%Z)];
  Utils.dirs := [] |}.
Definition ex_fo : fopts := {| o_begin := None; o_end := None; o_ext := None; o_outext := None |}.
Definition ex_read (k : string) : list bin * Flow.finfo := match flow_file 60 (Average.content ex_disk k) with Ok m => m | Err _ => ([], Flow.mkFinfo None None None None) end.
Definition file_maps : list (list bin * Flow.finfo) := Eval vm_compute in [ex_read "map_00001.dat"; ex_read "map_00002.dat"].
Definition file_truth : list truth := [(0, CollectProps.zz [(2, 4); (3, 4)]); (0, CollectProps.zz [(4, 6); (4, 5)])]%Z.
Definition shown (r : res (list (res (list Qc * list Qc)))) : res (list (res (list Q * list Q))) := rmap (map (rmap (fun c => (map this (fst c), map this (snd c))))) r.
Example C69_ex : let (d', r) := collect_files 10 60 ex_hdr (Some (ZQ 4)) (Some 1) 1 (None, None) Collect.OtherOption ex_disk "map_" "out_" ex_fo in
  r = None /\ shown (read_interfaces 10 d' "out_" ex_fo) = Ok [Ok ([2; 3; 4; 4], [0; 1; 1; 0]); Ok ([4; 4; 5; 6], [0; 1; 1; 0])]%Q.
Proof. vm_compute. split; reflexivity. Qed.
Lemma ex_reads : forall i mp, nth_error file_maps i = Some mp -> flow_file 60 (Average.content ex_disk (fname "map_" (1 + Z.of_nat i) ".dat")) = Ok mp.
Proof.
  intros [|[|[|i]]] mp H; cbn [file_maps nth_error] in H; try discriminate; injection H as <-; vm_compute; reflexivity.
Qed.
Lemma ex_run : run_length (fun z => True /\ exists_path ex_disk (os_path (fname "map_" z ".dat")) = true) 1 2.
Proof.
  split.
  - intros k Hk. split; [exact I|]. assert (k = 0 \/ k = 1)%Z as [-> | ->] by lia; vm_compute; reflexivity.
  - intros [_ C]. vm_compute in C. discriminate.
Qed.
Import CollectProps.
Ltac decq := solve [apply qle_true; vm_compute; reflexivity | apply qlt_true; vm_compute; reflexivity].
Example C69_ex_shows : Forall2 (map_shows bM (Some (ZQ 4)) (Some 1) 1 (None, None) (ZQ 6) 0 1) file_maps file_truth.
Proof.
  unfold file_maps, file_truth. constructor; [|constructor; [|constructor]].
  - show_layers 0%Z [(0, 2, 4); (1, 3, 4)]%Z [(2, 4); (3, 4)]%Z.
  - show_layers 0%Z [(0, 4, 0); (1, 4, 5)]%Z [(4, 6); (4, 5)]%Z.
Qed.
Example C69_ex_droplet : Forall (droplet (ZQ 6) 0 1) file_truth /\ starts_in_a_box (ZQ 6) file_truth /\ frame_steps (ZQ 6) file_truth.
Proof.
  split; [|split].
  - unfold file_truth. repeat (apply Forall_cons; [|]); try apply Forall_nil;
      (split; [simpl; lia|]; split; [|decq]); repeat (apply Forall_cons; [split; decq|]); apply Forall_nil.
  - exists 0%Z. intros p [<-|[<-|[]]]; apply in_box_6; simpl; lia.
  - unfold file_truth. cbn [frame_steps]. split; [|exact I]; unfold frame_step, nearest; intros i p Hi q Hq;
      at_each i Hi; injection Hi as <-; cbn [fst snd zz map length] in Hq;
      match type of Hq with nth_error _ ?n = _ => let n' := eval vm_compute in n in change n with n' in Hq end;
      cbn [nth_error fst snd] in Hq; injection Hq as <-; apply step_6; try lia;
      first [left; exists 0%Z; lia | right; exists 0%Z; lia | right; exists 1%Z; lia].
Qed.
Lemma decimals_Z z : decimals3 (ZQ z).
Proof. exists (z * 1000)%Z. rewrite ZQ_mul. field. apply qpos_nz. decq. Qed.
Example C69_ex_areas : exists d' series rows, collect_files 10 60 ex_hdr (Some (ZQ 4)) (Some 1) 1 (None, None) Collect.OtherOption ex_disk "map_" "out_" ex_fo = (d', None) /\
    read_interfaces 10 d' "out_" {| o_begin := Some 1%Z; o_end := Some (Upto (1 + 2 - 1)); o_ext := Some ".xvg"%string; o_outext := None |} = Ok series /\
    InterfaceSample.sample_areas (map (fun r => match r with Ok c => Some c | Err _ => None end) series) 1 = Ok rows /\ length rows = 2%nat /\
    forall i f, nth_error file_truth i = Some f -> exists a, nth_error rows i = Some (NQ i * 1, a) /\
      (1 + 1) * a = - twice_area (polygon (InterfaceSampleProps.true_layers 1 (snd f))).
Proof.
  destruct C69_ex_droplet as (D1 & D2 & D3).
  apply (C69_true_areas 10 60 ex_hdr (Some (ZQ 4)) (Some 1) 1%Z (None, None) ex_disk "map_" "out_" ex_fo 2 file_maps file_truth (ZQ 6) 0 1 1).
  - repeat constructor; cbn; intuition discriminate.
  - unfold no_slash. vm_compute. repeat split; discriminate.
  - lia.
  - exact ex_run.
  - intros j k Hj Hk. cbn [o_begin o_ext o_outext ex_fo] in *. assert (j = 1 /\ k = 2)%Z as [-> ->] by lia. vm_compute. discriminate.
  - reflexivity.
  - exact ex_reads.
  - intros k Hk. cbn [o_begin o_ext o_outext ex_fo] in *. unfold ex_hdr. apply C68_header; [lit|lit|lit|lit|apply Forall_cons; [|apply Forall_nil]|repeat split; lit].
    assert (k = 1 \/ k = 2)%Z as [-> | ->] by lia; lit.
  - decq.
  - decq.
  - exact C69_ex_shows.
  - exact D1.
  - exact D2.
  - exact D3.
  - apply decimals_Z.
  - apply (decimals_Z 1).
  - intros f p [<- | [<- | []]] [<- | [<- | []]]; split; apply decimals_Z.
Qed.
