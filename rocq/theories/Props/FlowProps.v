(** Properties C15-C19 and C57: the FlowData container. *)
From Coq Require Import String Permutation.
From Verif.Base Require Import QcX Res Np Sort.
From Verif.Model Require Import Flow.
From Verif.Spec Require Import FlowSpec.
From Verif.Proofs Require Import FlowP.
Local Open Scope list_scope.

(** ** C15: lims *)
Theorem C15_lims_exact : forall l lo hi f g, wf (data f) -> lims l lo hi f = Ok g ->
  labels (data g) = labels (data f) /\
  selects (field_inside (labels (data f)) l lo hi) (rows (data f)) (rows (data g)) /\
  info g = mkFinfo None None (f_spacing (info f)) (Some (Z.of_nat (length (rows (data g))))).
Proof. exact lims_exact. Qed.
Print Assumptions C15_lims_exact.

(** The label decides whether limits can be applied. *)
Theorem C15_lims_errors : forall l lo hi f,
  (In l (labels (data f)) -> exists g, lims l lo hi f = Ok g) /\
  (~ In l (labels (data f)) -> lims l lo hi f = Err KeyErr).
Proof. exact lims_defined. Qed.
Print Assumptions C15_lims_errors.

Theorem C15_lims_intersect : forall l lo hi l' lo' hi' f g k,
  wf (data f) -> lims l lo hi f = Ok g -> lims l' lo' hi' g = Ok k ->
  selects (fun r => field_inside (labels (data f)) l lo hi r /\ field_inside (labels (data f)) l' lo' hi' r)
    (rows (data f)) (rows (data k)).
Proof. exact lims_lims. Qed.
Print Assumptions C15_lims_intersect.

Theorem C15_lims_commute : forall l lo hi l' lo' hi' f g k g' k', wf (data f) ->
  lims l lo hi f = Ok g -> lims l' lo' hi' g = Ok k ->
  lims l' lo' hi' f = Ok g' -> lims l lo hi g' = Ok k' -> k = k'.
Proof. exact lims_commute. Qed.
Print Assumptions C15_lims_commute.

Theorem C15_lims_idempotent : forall l lo hi f g, wf (data f) -> lims l lo hi f = Ok g -> lims l lo hi g = Ok g.
Proof. exact lims_idempotent. Qed.
Print Assumptions C15_lims_idempotent.

(** The limited map is again well-formed, so limits can be chained. *)
Theorem C15_lims_wf : forall l lo hi f g, wf (data f) -> lims l lo hi f = Ok g -> wf (data g).
Proof. exact lims_wf. Qed.
Print Assumptions C15_lims_wf.

(** Non-vacuity: a map with three bins, of which two are kept. *)
Definition z (n : Z) : Qc := ZQ n.
Definition ex_table := mkTable ["X"; "Y"; "M"]%string [[z 0; z 0; z 5]; [z 1; z 0; z 7]; [z 2; z 0; z 3]].
Definition ex_flow := mkFlow ex_table (mkFinfo (Some (3, 1)%Z) (Some (0, 0)) (Some (1, 1)) (Some 3%Z)).
Fixpoint rows_eqb (a b : list (list Qc)) : bool :=
  match a, b with
  | [], [] => true
  | x :: a', y :: b' => (lexle x y && lexle y x && rows_eqb a' b')%bool
  | _, _ => false
  end.
Definition res_rows (r : res flow) : list (list Qc) := match r with Ok f => rows (data f) | Err _ => [] end.
Example C15_ex_wf : wf (data ex_flow).
Proof.
  split; simpl.
  - repeat (constructor; [simpl; intuition discriminate|]). constructor.
  - intros r H. repeat (destruct H as [<-|H]; [reflexivity|]). destruct H.
Qed.
Example C15_ex : rows_eqb (res_rows (lims "M" (Some (z 4)) None ex_flow)) [[z 0; z 0; z 5]; [z 1; z 0; z 7]] = true.
Proof. vm_compute; reflexivity. Qed.

(** ** C16: cut *)
Theorem C16_cut_exact : forall xlim ylim f g ox oy nx ny dx dy, wf (data f) ->
  f_origin (info f) = Some (ox, oy) -> f_shape (info f) = Some (nx, ny) -> f_spacing (info f) = Some (dx, dy) ->
  cut xlim ylim f = Ok g ->
  let xmin := match fst xlim with Some x => x | None => ox end in
  let xmax := match snd xlim with Some x => x | None => ox + ZQ nx * dx end in
  let ymin := match fst ylim with Some x => x | None => oy end in
  let ymax := match snd ylim with Some x => x | None => oy + ZQ ny * dy end in
  labels (data g) = labels (data f) /\
  selects (fun r => field_inside (labels (data f)) "X" (Some xmin) (Some xmax) r /\
                    field_inside (labels (data f)) "Y" (Some ymin) (Some ymax) r) (rows (data f)) (rows (data g)) /\
  exists ux uy,
    NoDup ux /\ (forall v, In v ux <-> exists r, In r (rows (data g)) /\ has (labels (data g)) "X" r v) /\
    NoDup uy /\ (forall v, In v uy <-> exists r, In r (rows (data g)) /\ has (labels (data g)) "Y" r v) /\
    info g = mkFinfo (Some (Z.of_nat (length ux), Z.of_nat (length uy))) (Some (xmin, ymin)) (Some (dx, dy))
                     (Some (Z.of_nat (length ux) * Z.of_nat (length uy))%Z).
Proof. exact cut_exact. Qed.
Print Assumptions C16_cut_exact.

Theorem C16_cut_errors : forall xlim ylim f,
  match f_origin (info f), f_shape (info f), f_spacing (info f) with
  | Some _, Some _, Some _ =>
     if (existsb (String.eqb "X") (labels (data f)) && existsb (String.eqb "Y") (labels (data f)))%bool
     then exists g, cut xlim ylim f = Ok g else cut xlim ylim f = Err KeyErr
  | _, _, _ => cut xlim ylim f = Err TypeErr
  end.
Proof. exact cut_defined. Qed.
Print Assumptions C16_cut_errors.

(** A map whose coordinates are exactly those of its grid information is not
    changed by a cut without limits. *)
Theorem C16_cut_without_limits : forall f g ox oy nx ny dx dy,
  wf (data f) -> 0 < dx -> 0 < dy -> (0 <= nx)%Z -> (0 <= ny)%Z ->
  f_origin (info f) = Some (ox, oy) -> f_shape (info f) = Some (nx, ny) -> f_spacing (info f) = Some (dx, dy) ->
  (forall x, (exists i, (0 <= i < nx)%Z /\ x = ox + ZQ i * dx) <-> exists r, In r (rows (data f)) /\ has (labels (data f)) "X" r x) ->
  (forall y, (exists j, (0 <= j < ny)%Z /\ y = oy + ZQ j * dy) <-> exists r, In r (rows (data f)) /\ has (labels (data f)) "Y" r y) ->
  cut (None, None) (None, None) f = Ok g ->
  data g = data f /\ info g = mkFinfo (Some (nx, ny)) (Some (ox, oy)) (Some (dx, dy)) (Some (nx * ny)%Z).
Proof. exact cut_whole_grid. Qed.
Print Assumptions C16_cut_without_limits.

(** Finding: with a limit between two bins the origin of the result is the
    limit, so that it is not the position of the first remaining bin. *)
Definition qpair_eqb (a b : option (Qc * Qc)) : bool :=
  match a, b with Some (x, y), Some (u, v) => (qeq x u && qeq y v)%bool | None, None => true | _, _ => false end.
Theorem C16_origin_is_not_a_bin_refuted : exists f g, wf (data f) /\ cut (Some (Q2Qc (1 # 2)), None) (None, None) f = Ok g /\
  f_origin (info g) = Some (Q2Qc (1 # 2), 0) /\
  forall r, In r (rows (data g)) -> ~ has (labels (data g)) "X" r (Q2Qc (1 # 2)).
Proof.
  exists ex_flow.
  destruct (C16_cut_errors (Some (Q2Qc (1 # 2)), None) (None, None) ex_flow) as [g Hg].
  exists g. split; [exact C15_ex_wf|]. split; [exact Hg|].
  destruct (C16_cut_exact _ _ _ _ _ _ _ _ _ _ C15_ex_wf eq_refl eq_refl eq_refl Hg) as (L & S & ux & uy & _ & _ & _ & _ & I).
  split; [rewrite I; reflexivity|].
  intros r Hr. rewrite L. apply (selects_in _ _ _ S) in Hr as [Hr _].
  intros (k & Hk & Hv). simpl in Hr.
  assert (k = 0)%nat as -> by (destruct k as [|[|[|[|]]]]; simpl in Hk; congruence).
  destruct Hr as [E|[E|[E|[]]]]; subst r; apply (f_equal (fun o => match o with Some q => qeq q (Q2Qc (1 # 2)) | None => false end)) in Hv;
    vm_compute in Hv; discriminate Hv.
Qed.
Print Assumptions C16_origin_is_not_a_bin_refuted.
Example C16_ex : rows_eqb (res_rows (cut (Some (z 1), None) (None, None) ex_flow)) [[z 1; z 0; z 7]; [z 2; z 0; z 3]] = true.
Proof. vm_compute; reflexivity. Qed.

(** ** C17: sort *)
Theorem C17_sort : forall t t', wf t -> sort_table t = Ok t' ->
  labels t' = labels t /\ Permutation (rows t) (rows t') /\
  forall i j r r' x y x' y', (i < j)%nat -> nth_error (rows t') i = Some r -> nth_error (rows t') j = Some r' ->
    has (labels t) "X" r x -> has (labels t) "Y" r y -> has (labels t) "X" r' x' -> has (labels t) "Y" r' y' ->
    y < y' \/ (y = y' /\ x <= x').
Proof. exact sort_spec. Qed.
Print Assumptions C17_sort.

Theorem C17_sort_canonical : forall t u, labels t = labels u -> Permutation (rows t) (rows u) -> sort_table t = sort_table u.
Proof. exact sort_canonical. Qed.
Print Assumptions C17_sort_canonical.

Theorem C17_sort_idempotent : forall t t', sort_table t = Ok t' -> sort_table t' = Ok t'.
Proof. exact sort_idem. Qed.
Print Assumptions C17_sort_idempotent.

Theorem C17_sort_defined : forall t, (exists t', sort_table t = Ok t') <-> In "X"%string (labels t) /\ In "Y"%string (labels t).
Proof. exact sort_defined. Qed.
Print Assumptions C17_sort_defined.
Example C17_ex : match sort_table (mkTable ["X"; "Y"]%string [[z 0; z 1]; [z 1; z 0]; [z 2; z 0]; [z 3; z 1]]) with
  | Ok t => rows_eqb (rows t) [[z 1; z 0]; [z 2; z 0]; [z 0; z 1]; [z 3; z 1]] | Err _ => false end = true.
Proof. vm_compute; reflexivity. Qed.

(** ** C18: derived objects *)
(** copy, translate, lims and cut put their result into new memory and leave every existing array unchanged. *)
Theorem C18_derived_is_new : forall d h o h' o', h_derive d h o = Ok (h', o') ->
  addr o' = length h /\ length h' = S (length h) /\
  (forall a t, nth_error h a = Some t -> nth_error h' a = Some t) /\
  exists f f', deref h o = Some f /\ derive_value d f = Ok f' /\ deref h' o' = Some f'.
Proof. exact derive_fresh. Qed.
Print Assumptions C18_derived_is_new.

(** Later changes to the array of the one object do not show in the other. *)
Theorem C18_no_alias : forall d h o h' o' t, h_derive d h o = Ok (h', o') ->
  deref (hset h' (addr o') t) o = deref h o /\
  deref (hset h' (addr o) t) o' = deref h' o'.
Proof. exact derive_no_alias. Qed.
Print Assumptions C18_no_alias.

(** Sorting changes this object only. *)
Theorem C18_sort_in_place : forall h o h', h_sort h o = Ok h' ->
  length h' = length h /\ (forall o2, addr o2 <> addr o -> deref h' o2 = deref h o2).
Proof. exact sort_in_place. Qed.
Print Assumptions C18_sort_in_place.

Theorem C18_translate : forall l v f g, wf (data f) -> translate l v f = Ok g ->
  labels (data g) = labels (data f) /\ info g = info f /\
  exists ds, length ds = length (rows (data f)) /\
    (match v with inl q => forall d, In d ds -> d = q
     | inr c => ds = c \/ exists q, c = [q] /\ forall d, In d ds -> d = q end) /\
    length (rows (data g)) = length (rows (data f)) /\
    forall i r d, nth_error (rows (data f)) i = Some r -> nth_error ds i = Some d ->
      exists r', nth_error (rows (data g)) i = Some r' /\ shifted (labels (data f)) l d r r'.
Proof. exact translate_array. Qed.
Print Assumptions C18_translate.

Theorem C18_translate_compose : forall l a b f, wf (data f) ->
  (do g <- translate l (inl a) f; translate l (inl b) g) = translate l (inl (a + b)) f.
Proof. exact translate_compose. Qed.
Print Assumptions C18_translate_compose.

Theorem C18_translate_back : forall l a f g, wf (data f) -> In l (labels (data f)) ->
  translate l (inl a) f = Ok g -> translate l (inl (- a)) g = Ok f.
Proof.
  intros l a f g W Hl H. pose proof (translate_compose l a (- a) f W) as E. rewrite H in E. simpl in E.
  rewrite E. replace (a + - a) with 0 by ring. apply translate_zero; auto.
Qed.
Print Assumptions C18_translate_back.

Theorem C18_translate_errors : forall l v f,
  (~ In l (labels (data f)) -> translate l v f = Err KeyErr) /\
  (forall c, In l (labels (data f)) -> v = inr c -> length c <> length (rows (data f)) -> length c <> 1%nat ->
     translate l v f = Err ValueErr).
Proof. exact translate_errors. Qed.
Print Assumptions C18_translate_errors.
Example C18_ex : rows_eqb (res_rows (translate "X" (inl (z 10)) ex_flow)) [[z 10; z 0; z 5]; [z 11; z 0; z 7]; [z 12; z 0; z 3]] = true.
Proof. vm_compute; reflexivity. Qed.
Example C18_ex_object : exists h o, h_derive DCopy [ex_table] (mkObj 0 finfo0) = Ok (h, o).
Proof. eexists; eexists; reflexivity. Qed.

(** ** C19: grid information *)
(** The value of a pair assigned to origin or spacing. *)
Theorem C19_pair_values : forall v, match float_pair v with
  | Ok None => v = PNone \/ v = PSeq true [PNone; PNone]
  | Ok (Some (a, b)) => exists tp l, v = PSeq tp (PNum a :: PNum b :: l)
  | Err e => e = ValueErr
  end.
Proof. exact float_pair_spec. Qed.
Print Assumptions C19_pair_values.

(** Each assignment sets just its own property, to the given value, or raises ValueError. *)
Theorem C19_assign : forall p v i, match assign p v i with
  | Err e => e = ValueErr
  | Ok i' =>
    (p <> Shape -> f_shape i' = f_shape i) /\ (p <> Origin -> f_origin i' = f_origin i) /\
    (p <> Spacing -> f_spacing i' = f_spacing i) /\ (p <> NumBins -> f_num i' = f_num i) /\
    match p with
    | Origin => float_pair v = Ok (f_origin i')
    | Spacing => float_pair v = Ok (f_spacing i')
    | Shape => match f_shape i' with
       | None => float_pair v = Ok None
       | Some (m, n) => exists a b, float_pair v = Ok (Some (a, b)) /\ m = qtrunc a /\ n = qtrunc b end
    | NumBins => match f_num i' with
       | None => v = PNone
       | Some n => exists a, v = PNum a /\ n = qtrunc a end
    end
  end.
Proof.
  intros p v i. destruct p; simpl.
  - unfold int_pair. pose proof (float_pair_spec v) as H. destruct (float_pair v) as [[[a b]|]|]; simpl in *; auto;
      repeat split; try congruence; auto. eauto.
  - pose proof (float_pair_spec v) as H. destruct (float_pair v); simpl in *; auto; repeat split; congruence.
  - pose proof (float_pair_spec v) as H. destruct (float_pair v); simpl in *; auto; repeat split; congruence.
  - destruct v; simpl; auto; repeat split; try congruence. eauto.
Qed.
Print Assumptions C19_assign.

(** Whole numbers are kept as they are. *)
Theorem C19_integers_exact : forall n, qtrunc (ZQ n) = n.
Proof.
  intro n. unfold qtrunc, ZQ, Q2Qc, this. rewrite Qred_identity; [simpl; apply Z.quot_1_r|].
  cbn [Qnum Qden inject_Z]. apply Z.gcd_1_r.
Qed.
Print Assumptions C19_integers_exact.

(** set_info: success sets all four properties from the dict and means that
    no unknown key was given; a failure is a ValueError for a bad value or
    a KeyError for an unknown key. *)
Theorem C19_set_info : forall d i, match set_info d i with
  | (i', None) =>
      int_pair (dget "shape" d) = Ok (f_shape i') /\ float_pair (dget "origin" d) = Ok (f_origin i') /\
      float_pair (dget "spacing" d) = Ok (f_spacing i') /\ int_single (dget "num_bins" d) = Ok (f_num i') /\
      (forall k v, In (k, v) d -> In k ["shape"; "origin"; "spacing"; "num_bins"]%string)
  | (_, Some ValueErr) =>
      ~ is_ok (int_pair (dget "shape" d)) = true \/ ~ is_ok (float_pair (dget "origin" d)) = true \/
      ~ is_ok (float_pair (dget "spacing" d)) = true \/ ~ is_ok (int_single (dget "num_bins" d)) = true
  | (_, Some KeyErr) => exists k v, In (k, v) d /\ ~ In k ["shape"; "origin"; "spacing"; "num_bins"]%string
  | _ => False
  end.
Proof.
  intros d i. unfold set_info, run_assigns, assign.
  destruct (int_pair (dget "shape" d)) as [s|e] eqn:E1; simpl rbind; cbv iota beta.
  2:{ assert (e = ValueErr) as ->. { unfold int_pair in E1. pose proof (float_pair_spec (dget "shape" d)) as H.
      destruct (float_pair (dget "shape" d)) as [[[? ?]|]|]; simpl in E1; try discriminate. congruence. }
      left. simpl. congruence. }
  destruct (float_pair (dget "origin" d)) as [o|e] eqn:E2; simpl rbind; cbv iota beta.
  2:{ pose proof (float_pair_spec (dget "origin" d)) as H. rewrite E2 in H. subst. right; left. simpl. congruence. }
  destruct (float_pair (dget "spacing" d)) as [p|e] eqn:E3; simpl rbind; cbv iota beta.
  2:{ pose proof (float_pair_spec (dget "spacing" d)) as H. rewrite E3 in H. subst. right; right; left. simpl. congruence. }
  destruct (int_single (dget "num_bins" d)) as [n|e] eqn:E4; simpl rbind; cbv iota beta.
  2:{ assert (e = ValueErr) as -> by (destruct (dget "num_bins" d); simpl in E4; congruence). right; right; right. simpl. congruence. }
  simpl f_shape. simpl f_origin. simpl f_spacing.
  destruct (forallb (fun e => known (fst e)) d) eqn:F.
  - repeat split; auto. intros k v H. rewrite forallb_forall in F. specialize (F _ H). simpl in F.
    unfold known in F. rewrite !orb_true_iff, !String.eqb_eq in F. simpl. intuition.
  - assert (exists x, In x d /\ known (fst x) = false) as ([k v] & H & K).
    { clear -F. induction d as [|x d IH]; simpl in F; [discriminate|].
      apply andb_false_iff in F as [F|F]; [exists x; simpl; auto|].
      destruct (IH F) as (y & Hy & E). exists y; simpl; auto. }
    exists k, v. split; auto. simpl in K. unfold known in K. rewrite !orb_false_iff, !String.eqb_neq in K.
    simpl. intuition.
Qed.
Print Assumptions C19_set_info.

(** size is number times spacing, and needs both. *)
Theorem C19_size : forall i, match size i with
  | Some (w, h) => exists nx ny dx dy, f_shape i = Some (nx, ny) /\ f_spacing i = Some (dx, dy) /\ w = ZQ nx * dx /\ h = ZQ ny * dy
  | None => f_shape i = None \/ f_spacing i = None
  end.
Proof.
  intro i. unfold size. destruct (f_shape i) as [[nx ny]|]; auto. destruct (f_spacing i) as [[dx dy]|]; auto.
  exists nx, ny, dx, dy; auto.
Qed.
Print Assumptions C19_size.
Example C19_ex : snd (set_info [("shape", PSeq true [PNum (z 3); PNum (z 4)]); ("origin", PNone)]%string finfo0) = None
  /\ snd (set_info [("size", PNum (z 3))]%string finfo0) = Some KeyErr
  /\ snd (set_info [("shape", PNum (z 3))]%string finfo0) = Some ValueErr.
Proof. repeat split. Qed.

(** Finding: longer sequences are cut off silently. *)
Theorem C19_extra_values_ignored : forall a b l tp, float_pair (PSeq tp (PNum a :: PNum b :: l)) = Ok (Some (a, b)).
Proof. intros. destruct tp; reflexivity. Qed.
Print Assumptions C19_extra_values_ignored.

(** ** C57: setting data *)
Theorem C57_set_data : forall cols t, set_data cols = Ok t ->
  labels t = map fst cols /\ NoDup (labels t) /\ wf t /\
  (forall n, (forall c, In c cols -> length (snd c) = n) ->
     length (rows t) = n /\ forall l c, In (l, c) cols -> get_data l t = Some c).
Proof. exact set_data_spec. Qed.
Print Assumptions C57_set_data.

(** Columns of unequal length, except for single values, are refused. *)
Theorem C57_unequal_refused : forall l0 c0 cols l c, In (l, c) cols -> length c <> length c0 -> length c <> 1%nat ->
  set_data ((l0, c0) :: cols) = Err ValueErr.
Proof.
  intros l0 c0 cols l c H Hc H1. unfold set_data.
  destruct (nodupb _); auto.
  assert (forall m, In c m -> rmapM (fit (length c0)) m = Err ValueErr) as G.
  { induction m as [|x m IH]; simpl; [tauto|]. intros [->|Hm].
    - unfold fit at 1. destruct (Nat.eqb_spec (length c) (length c0)); [contradiction|].
      destruct c as [|y [|]]; simpl in *; auto. congruence.
    - destruct (fit (length c0) x) eqn:E; simpl; [rewrite IH; auto|].
      unfold fit in E. destruct (Nat.eqb _ _); [discriminate|]. destruct x as [|? [|]]; congruence. }
  rewrite G; auto. simpl. right. apply in_map_iff. exists (l, c); auto.
Qed.
Print Assumptions C57_unequal_refused.

(** Finding: a column of one value does not have to have the same length as
    the others: it is repeated. *)
Theorem C57_single_value_refuted : exists cols t, set_data cols = Ok t /\
  (exists c c', In c cols /\ In c' cols /\ length (snd c) <> length (snd c')) /\ get_data "M" t = Some [1; 1; 1].
Proof.
  exists [("X", [0; 0; 0]); ("M", [1])]%string. eexists. split; [reflexivity|]. split.
  - exists ("X", [0; 0; 0])%string, ("M", [1])%string. simpl. split; auto. 
  - reflexivity.
Qed.
Print Assumptions C57_single_value_refuted.
Example C57_ex : set_data [("X", [0; 1]); ("Y", [1; 0])]%string = Ok (mkTable ["X"; "Y"]%string [[0; 1]; [1; 0]]).
Proof. reflexivity. Qed.
