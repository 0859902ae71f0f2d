(** Facts about the collection of interfaces. *)
From Verif.Base Require Import QcX Res Np ListX.
From Verif.Model Require Import Bins Flow Interface Spreading Collect.
From Verif.Spec Require Import SpreadingSpec CollectSpec.
From Verif.Proofs Require Import SpreadingP.
Local Open Scope list_scope.

(** ** Lists *)
Section L.
Context {A : Type}.
Lemma firstn_repeat (x : A) k n : firstn k (repeat x n) = repeat x (Nat.min k n).
Proof. revert n; induction k as [|k IH]; intros [|n]; simpl; try reflexivity. f_equal. apply IH. Qed.
Lemma skipn_repeat (x : A) k n : skipn k (repeat x n) = repeat x (n - k).
Proof. revert n; induction k as [|k IH]; intros [|n]; simpl; try reflexivity. apply IH. Qed.
Lemma nth_error_skipn (l : list A) k i : nth_error (skipn k l) i = nth_error l (k + i).
Proof. revert l; induction k as [|k IH]; intros [|a l]; simpl; try reflexivity; [destruct i; reflexivity|apply IH]. Qed.
Lemma nth_error_firstn (l : list A) k i : (i < k)%nat -> nth_error (firstn k l) i = nth_error l i.
Proof. revert l i; induction k as [|k IH]; intros [|a l] [|i] H; simpl; try reflexivity; try lia. apply IH. lia. Qed.
Lemma nth_error_repeat_lt (x : A) n i : (i < n)%nat -> nth_error (repeat x n) i = Some x.
Proof. intros H. apply nth_error_repeat. exact H. Qed.
Lemma slice_length i j (l : list A) : (j <= length l)%nat -> length (slice i j l) = (j - i)%nat.
Proof. intros H. unfold slice. rewrite firstn_length, skipn_length. lia. Qed.
Lemma slice_nth i j (l : list A) k : (k < j - i)%nat -> nth_error (slice i j l) k = nth_error l (i + k).
Proof. intros H. unfold slice. rewrite nth_error_firstn by exact H. apply nth_error_skipn. Qed.
End L.

Lemma first_some_app {A} (k : nat) (a : A) l : first_some (repeat None k ++ Some a :: l) = Some (k, a).
Proof. induction k as [|k IH]; [reflexivity|]. cbn [repeat app first_some]. rewrite IH. reflexivity. Qed.
Lemma rev_repeat {A} (x : A) n : rev (repeat x n) = repeat x n.
Proof.
  induction n as [|n IH]; [reflexivity|]. cbn [repeat rev]. rewrite IH.
  clear. induction n as [|n IH]; [reflexivity|]. cbn [repeat app]. f_equal. exact IH.
Qed.
Lemma first_some_all_none {A} n : @first_some A (repeat None n) = None.
Proof. induction n as [|n IH]; [reflexivity|]. simpl. rewrite IH. reflexivity. Qed.

Lemma fill_none n : fill_pbc (repeat None n) = repeat (Some init_periodic_info) n.
Proof. unfold fill_pbc. rewrite first_some_all_none, repeat_length. reflexivity. Qed.
Lemma fill_middle a b p q v w :
  p :: v = w ++ [q] ->
  fill_pbc (repeat None a ++ map Some (p :: v) ++ repeat None b) =
  repeat (Some p) a ++ map Some (p :: v) ++ repeat (Some q) b.
Proof.
  intros E. unfold fill_pbc. cbn [map app]. rewrite first_some_app.
  rewrite skipn_app, repeat_length, Nat.sub_diag. rewrite skipn_all2 by (rewrite repeat_length; lia). cbn [app skipn].
  assert (forall z : list (option pinfo), Some p :: map Some v ++ z = map Some w ++ Some q :: z) as EM.
  { intros z. change (Some p :: map Some v ++ z) with (map Some (p :: v) ++ z). rewrite E, map_app, <- app_assoc. reflexivity. }
  rewrite !EM. replace (rev (repeat (Some p) a ++ map Some w ++ Some q :: repeat None b))
    with (repeat None b ++ Some q :: rev (repeat (Some p) a ++ map Some w)).
  2:{ rewrite (app_assoc (repeat (Some p) a)), (rev_app_distr _ (Some q :: _)). cbn [rev]. rewrite rev_repeat, <- app_assoc. reflexivity. }
  rewrite first_some_app. rewrite !app_length, repeat_length, map_length. cbn [length]. rewrite repeat_length.
  rewrite !(app_assoc (repeat (Some p) a)). set (z := repeat (Some p) a ++ map Some w).
  assert (length z = a + length w)%nat as Lz by (unfold z; rewrite app_length, repeat_length, map_length; reflexivity).
  replace (a + (length w + S b) - b)%nat with (length z + 1)%nat by lia.
  rewrite firstn_app_2. cbn [firstn]. rewrite <- app_assoc. reflexivity.
Qed.

(** ** The index of a height *)
Definition regular (y0 h : Qc) (b : Z) (n : nat) : yindex :=
  mkY (y0 + ZQ b * h) (y0 + ZQ (b + Z.of_nat n - 1) * h) h n.

Lemma qmult_ZQ_le h a b : 0 < h -> (a <= b)%Z -> ZQ a * h <= ZQ b * h.
Proof. intros Hh H. apply ZQ_le in H. apply Qcmult_le_compat_r; [exact H|apply qc_lt_le; exact Hh]. Qed.
Lemma qmult_ZQ_le_inv h a b : 0 < h -> ZQ a * h <= ZQ b * h -> (a <= b)%Z.
Proof. intros Hh H. destruct (Z_le_gt_dec a b) as [|Hn]; [assumption|]. assert (b < a)%Z as Hl by lia.
  apply ZQ_lt in Hl. pose proof (Qcmult_lt_compat_r _ _ h Hh Hl). generalize dependent (ZQ a * h). generalize dependent (ZQ b * h). intros; qlra. Qed.

Lemma clip_height y0 h b n z : 0 < h -> (1 <= n)%nat ->
  qmin (qmax (y0 + ZQ z * h) (y0 + ZQ b * h)) (y0 + ZQ (b + Z.of_nat n - 1) * h) = y0 + ZQ (nearest b n z) * h.
Proof.
  intros Hh Hn. unfold nearest. unfold qmin, qmax.
  assert (forall a c, qle (y0 + ZQ a * h) (y0 + ZQ c * h) = (a <=? c)%Z) as E.
  { intros a c. destruct (a <=? c)%Z eqn:Q.
    - apply qle_true. apply Z.leb_le in Q. pose proof (qmult_ZQ_le h _ _ Hh Q). generalize dependent (ZQ a * h). generalize dependent (ZQ c * h). intros; qlra'.
    - destruct (qle_spec (y0 + ZQ a * h) (y0 + ZQ c * h)) as [H|H]; [|reflexivity]. exfalso. apply Z.leb_gt in Q.
      assert (a <= c)%Z; [|lia]. apply (qmult_ZQ_le_inv h); [exact Hh|]. generalize dependent (ZQ a * h). generalize dependent (ZQ c * h). intros; qlra'. }
  rewrite (E z b). destruct (Z.leb_spec z b) as [H1|H1]; rewrite E.
  - destruct (Z.leb_spec b (b + Z.of_nat n - 1)); [|lia]. do 3 f_equal. lia.
  - destruct (Z.leb_spec z (b + Z.of_nat n - 1)); do 3 f_equal; lia.
Qed.

Lemma index_regular y0 h b n z : 0 < h -> (1 <= n)%nat ->
  get_yindex_for_value (y0 + ZQ z * h) (regular y0 h b n) = Ok (Z.to_nat (nearest b n z - b)).
Proof.
  intros Hh Hn. unfold get_yindex_for_value, regular. cbn [dy ymin ymax].
  pose proof (qpos_nz _ Hh) as Hz.
  destruct (qeq h 0) eqn:Q; [apply qeq_true in Q; contradiction|].
  rewrite clip_height by assumption. f_equal. f_equal.
  replace (y0 + ZQ (nearest b n z) * h - (y0 + ZQ b * h)) with (ZQ (nearest b n z - b) * h) by (rewrite ZQ_sub; ring).
  replace (ZQ (nearest b n z - b) * h / h) with (ZQ (nearest b n z - b)) by (field; exact Hz).
  rewrite qtrunc_nonneg; [apply qfloor_ZQ|]. change 0 with (ZQ 0). apply ZQ_le. unfold nearest. lia.
Qed.

(** heights which are not mistaken for each other by np.isclose *)
Definition resolved (y0 h : Qc) (b : Z) : Prop := Q2Qc (1 # 100000000) + Q2Qc (1 # 100000) * qabs (y0 + ZQ b * h) < h.

Lemma close_heights y0 h b b' : 0 < h -> resolved y0 h b' -> close (y0 + ZQ b * h) (y0 + ZQ b' * h) = true -> b = b'.
Proof.
  intros Hh Hr Hc. unfold close, isclose in Hc. apply qle_true in Hc.
  replace (y0 + ZQ b * h - (y0 + ZQ b' * h)) with (ZQ (b - b') * h) in Hc by (rewrite ZQ_sub; ring).
  unfold resolved in Hr. assert (qabs (ZQ (b - b') * h) < h) as H.
  { generalize dependent (Q2Qc (1 # 100000000) + Q2Qc (1 # 100000) * qabs (y0 + ZQ b' * h)). generalize (qabs (ZQ (b - b') * h)). intros; qlra'. }
  assert (b - b' < 1 /\ -1 < b - b')%Z; [|lia]. split; apply (zbox_lt h); auto.
  - replace (ZQ 1 * h) with h by (rewrite ZQ_1; ring). unfold qabs in H. destruct (qle_spec 0 (ZQ (b - b') * h)) as [Q|Q]; [|apply Qcnot_le_lt in Q]; generalize dependent (ZQ (b - b') * h); intros; qlra'.
  - replace (ZQ (-1) * h) with (- h) by (change (-1)%Z with (0 - 1)%Z; rewrite ZQ_sub, ZQ_1, ZQ_0; ring). unfold qabs in H. destruct (qle_spec 0 (ZQ (b - b') * h)) as [Q|Q]; [|apply Qcnot_le_lt in Q]; generalize dependent (ZQ (b - b') * h); intros; qlra'.
Qed.
Lemma close_refl a : close a a = true.
Proof.
  unfold close, isclose. apply qle_true. replace (a - a) with 0 by ring. unfold qabs at 1. change (qle 0 0) with true. cbn iota.
  pose proof (qabs_nonneg a). generalize dependent (qabs a). intros q H. qlra'.
Qed.

(** ** Carrying values from one indexing to the next *)
Lemma set_slice_none {A} (v : list (option A)) i n : (i + length v <= n)%nat ->
  set_slice i (i + length v) v (repeat None n) = Ok (repeat None i ++ v ++ repeat None (n - (i + length v))).
Proof.
  intros H. unfold set_slice. rewrite slice_length by (rewrite repeat_length; lia).
  replace (i + length v - i)%nat with (length v) by lia. rewrite Nat.eqb_refl.
  rewrite firstn_repeat, skipn_repeat. do 3 f_equal. lia.
Qed.

Lemma nearest_cases b n z : (1 <= n)%nat ->
  (z <= b /\ nearest b n z = b)%Z \/ (b <= z <= b + Z.of_nat n - 1 /\ nearest b n z = z)%Z \/
  (b + Z.of_nat n - 1 <= z /\ nearest b n z = b + Z.of_nat n - 1)%Z.
Proof. intros H. unfold nearest. lia. Qed.
Lemma clamps b b' n m : (1 <= n)%nat -> (1 <= m)%nat ->
  let imin := Z.to_nat (nearest b' m b - b') in let imax := Z.to_nat (nearest b' m (b + Z.of_nat n - 1) - b') in
  let jmin := Z.to_nat (nearest b n b' - b) in let jmax := Z.to_nat (nearest b n (b' + Z.of_nat m - 1) - b) in
  (imin <= imax /\ imax < m /\ jmin <= jmax /\ jmax < n /\ imax - imin = jmax - jmin)%nat.
Proof.
  intros Hn Hm. cbv zeta.
  destruct (nearest_cases b' m b Hm) as [(A & ->) | [(A & ->) | (A & ->)]];
  destruct (nearest_cases b' m (b + Z.of_nat n - 1) Hm) as [(B & ->) | [(B & ->) | (B & ->)]];
  destruct (nearest_cases b n b' Hn) as [(C & ->) | [(C & ->) | (C & ->)]];
  destruct (nearest_cases b n (b' + Z.of_nat m - 1) Hn) as [(D & ->) | [(D & ->) | (D & ->)]]; lia.
Qed.

Lemma clamp_at b b' n m i : (1 <= n)%nat -> (1 <= m)%nat -> (i < m)%nat ->
  let imin := Z.to_nat (nearest b' m b - b') in let imax := Z.to_nat (nearest b' m (b + Z.of_nat n - 1) - b') in
  let jmin := Z.to_nat (nearest b n b' - b) in let jmax := Z.to_nat (nearest b n (b' + Z.of_nat m - 1) - b) in
  let z := Z.to_nat (nearest b n (b' + Z.of_nat i) - b) in
  ((i < imin -> z = jmin) /\ (imin <= i <= imax -> z = jmin + (i - imin)) /\ (imax < i -> z = jmax))%nat.
Proof.
  intros Hn Hm Hi. cbv zeta.
  destruct (nearest_cases b' m b Hm) as [(A & ->) | [(A & ->) | (A & ->)]];
  destruct (nearest_cases b' m (b + Z.of_nat n - 1) Hm) as [(B & ->) | [(B & ->) | (B & ->)]];
  destruct (nearest_cases b n b' Hn) as [(C & ->) | [(C & ->) | (C & ->)]];
  destruct (nearest_cases b n (b' + Z.of_nat m - 1) Hn) as [(D & ->) | [(D & ->) | (D & ->)]];
  destruct (nearest_cases b n (b' + Z.of_nat i) Hn) as [(E & ->) | [(E & ->) | (E & ->)]]; try (exfalso; lia); lia.
Qed.

Lemma carried y0 h b b' n m (xs : list pinfo) : 0 < h -> (1 <= n)%nat -> (1 <= m)%nat -> length xs = n -> resolved y0 h b' ->
  exists t, transfer_values (Some (map Some xs, regular y0 h b n)) (regular y0 h b' m) = Ok t /\ length (fill_pbc t) = m /\
    forall i, (i < m)%nat -> nth_error (fill_pbc t) i =
      option_map Some (nth_error xs (Z.to_nat (nearest b n (b' + Z.of_nat i) - b))).
Proof.
  intros Hh Hn Hm HL Hr. unfold transfer_values.
  assert (forall (ys : list pinfo), ys <> [] -> exists w q, ys = w ++ [q] /\ nth_error ys (length ys - 1) = Some q) as LAST.
  { intros ys Hy. destruct (exists_last Hy) as (w & q & E). exists w, q. split; [exact E|]. rewrite E, app_length. simpl.
    rewrite nth_error_app2 by lia. replace (length w + 1 - 1 - length w)%nat with 0%nat by lia. reflexivity. }
  assert (forall i, (i < n)%nat -> nth_error (map Some xs) i = option_map Some (nth_error xs i)) as MS by (intros; apply nth_error_map).
  destruct (close _ _ && close _ _ && close _ _ && Nat.eqb _ _)%bool eqn:C.
  - apply Bool.andb_true_iff in C as [C C4]. apply Bool.andb_true_iff in C as [C C3]. apply Bool.andb_true_iff in C as [C1 C2].
    apply Nat.eqb_eq in C4. cbn [num regular] in C4. cbn [ymin regular] in C1.
    apply close_heights in C1; auto. subst b' m. exists (map Some xs). split; [reflexivity|].
    destruct xs as [|p xs]; [simpl in HL; lia|].
    destruct (LAST (p :: xs)) as (w & q & E & _); [discriminate|].
    pose proof (fill_middle 0 0 p q xs w E) as F. cbn [repeat] in F. rewrite !app_nil_r in F. cbn [app] in F. rewrite F.
    split; [rewrite map_length; exact HL|]. intros i Hi. rewrite MS by exact Hi. do 2 f_equal. unfold nearest. lia.
  - cbn [dy regular]. rewrite close_refl. cbn [negb]. cbn [ymin ymax].
    cbv beta iota delta [regular ymin ymax]. fold (regular y0 h b n). fold (regular y0 h b' m).
    rewrite !index_regular by assumption. cbn [rbind]. change (num (regular y0 h b' m)) with m.
    set (imin := Z.to_nat (nearest b' m b - b')). set (imax := Z.to_nat (nearest b' m (b + Z.of_nat n - 1) - b')).
    set (jmin := Z.to_nat (nearest b n b' - b)). set (jmax := Z.to_nat (nearest b n (b' + Z.of_nat m - 1) - b)).
    assert (imin <= imax /\ imax < m /\ jmin <= jmax /\ jmax < n /\ imax - imin = jmax - jmin)%nat as (I1 & I2 & J1 & J2 & IJ)
      by (apply clamps; assumption).
    set (v := slice jmin (jmax + 1) xs).
    assert (slice jmin (jmax + 1) (map Some xs) = map Some v) as Ev by (unfold v, slice; rewrite skipn_map, firstn_map; reflexivity).
    assert (length v = jmax + 1 - jmin)%nat as Lv by (apply slice_length; lia).
    rewrite Ev. replace (imax + 1)%nat with (imin + length (map Some v))%nat by (rewrite map_length; lia).
    rewrite set_slice_none by (rewrite map_length; lia). rewrite map_length.
    eexists. split; [reflexivity|].
    assert (forall k, (k < length v)%nat -> nth_error v k = nth_error xs (jmin + k)) as Nv by (intros; apply slice_nth; lia).
    clearbody v. clear Ev. destruct v as [|p v']; [simpl in Lv; lia|].
    destruct (LAST (p :: v')) as (w & q & E & Eq); [discriminate|].
    rewrite (fill_middle _ _ p q v' w E). set (v := p :: v') in *.
    assert (nth_error xs jmin = Some p) as Hp by (rewrite <- (Nat.add_0_r jmin), <- Nv by lia; reflexivity).
    assert (nth_error xs jmax = Some q) as Hq. { rewrite <- Eq, Nv by lia. f_equal. lia. }
    split; [rewrite !app_length, !repeat_length, map_length; lia|].
    intros i Hi. destruct (clamp_at b b' n m i Hn Hm Hi) as (K1 & K2 & K3). fold imin imax jmin jmax in K1, K2, K3.
    destruct (lt_dec i imin) as [C1|C1].
    + rewrite nth_error_app1 by (rewrite repeat_length; exact C1). rewrite nth_error_repeat_lt by exact C1.
      rewrite (K1 C1). rewrite Hp. reflexivity.
    + rewrite nth_error_app2 by (rewrite repeat_length; lia). rewrite repeat_length. destruct (lt_dec i (imin + length v)) as [C2|C2].
      * rewrite nth_error_app1 by (rewrite map_length; lia). rewrite nth_error_map, Nv by lia. do 2 f_equal.
        rewrite K2 by lia. reflexivity.
      * rewrite nth_error_app2 by (rewrite map_length; lia). rewrite map_length. rewrite nth_error_repeat_lt by lia.
        rewrite K3 by lia. rewrite Hq. reflexivity.
Qed.
