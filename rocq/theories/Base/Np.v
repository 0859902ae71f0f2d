(** The numpy primitives used by the modelled code, over exact rationals. *)
From Verif.Base Require Import QcX Res.

(** Floating point values including the non-finite ones; only used where the
    code depends on them. *)
Inductive ext := Fin (q : Qc) | PInf | NInf | NaN.

(** numpy true division of finite values (no sign of zero). *)
Definition ediv (a b : Qc) : ext :=
  if qeq b 0 then (if qeq a 0 then NaN else if qlt 0 a then PInf else NInf) else Fin (a / b).

(** Largest finite float64, (2 - 2^-52) * 2^1023. *)
Definition fmax : Qc := ZQ (2 ^ 1024 - 2 ^ 971).

(** [np.nan_to_num]. *)
Definition nan_to_num (x : ext) : Qc :=
  match x with Fin q => q | PInf => fmax | NInf => - fmax | NaN => 0 end.

(** [np.isclose(a, b, atol, rtol)] for finite values. *)
Definition isclose (atol rtol a b : Qc) : bool := qle (qabs (a - b)) (atol + rtol * qabs b).

Fixpoint allclose (atol rtol : Qc) (l m : list Qc) : bool :=
  match l, m with
  | [], [] => true
  | a :: l, b :: m => isclose atol rtol a b && allclose atol rtol l m
  | _, _ => false
  end.

(** [np.mean] of a non-empty list (the empty mean is nan in numpy; callers
    treat that case themselves). *)
Definition qmean (l : list Qc) : Qc := qsum l / NQ (length l).

(** [np.linspace(a, b, n)]. *)
Definition linspace (a b : Qc) (n : nat) : list Qc :=
  match n with
  | O => []
  | S O => [a]
  | S m => map (fun k => a + NQ k * ((b - a) / NQ m)) (seq 0 n)
  end.

(** [np.average(a, weights=w)] raises ZeroDivisionError for zero total weight. *)
Definition np_average (l w : list Qc) : res Qc :=
  if qeq (qsum w) 0 then Err ZeroDivErr
  else Ok (qsum (map (fun p => fst p * snd p) (combine l w)) / qsum w).

Definition list_min (l : list Qc) : option Qc :=
  match l with [] => None | x :: l => Some (fold_left qmin l x) end.
Definition list_max (l : list Qc) : option Qc :=
  match l with [] => None | x :: l => Some (fold_left qmax l x) end.

(** Index of the first smallest element ([np.argmin]). *)
Fixpoint argmin_from (best : Qc) (bi i : nat) (l : list Qc) : nat :=
  match l with
  | [] => bi
  | x :: l => if qlt x best then argmin_from x i (S i) l else argmin_from best bi (S i) l
  end.
Definition argmin (l : list Qc) : option nat :=
  match l with [] => None | x :: l => Some (argmin_from x 0 1 l) end.

(** [np.unique]: sorted without repetitions. *)
Fixpoint uinsert (x : Qc) (l : list Qc) : list Qc :=
  match l with
  | [] => [x]
  | y :: l' => if qlt x y then x :: l else if qeq x y then l else y :: uinsert x l'
  end.
Definition unique (l : list Qc) : list Qc := fold_right uinsert [] l.

(** [np.diff]. *)
Fixpoint qdiff (l : list Qc) : list Qc :=
  match l with
  | x :: ((y :: _) as l') => (y - x) :: qdiff l'
  | _ => []
  end.

(** Integer rounding: floor, ceil, truncation towards zero ([int()]), and round half to even ([np.round]). *)
Definition qfloor (q : Qc) : Z := (Qnum (this q) / Z.pos (Qden (this q)))%Z.
Definition qceil (q : Qc) : Z := (- ((- Qnum (this q)) / Z.pos (Qden (this q))))%Z.
Definition qtrunc (q : Qc) : Z := (Z.quot (Qnum (this q)) (Z.pos (Qden (this q))))%Z.
Definition qround (q : Qc) : Z :=
  let f := qfloor q in
  let r := q - ZQ f in
  let half := Q2Qc (1 # 2) in
  if qlt r half then f else if qlt half r then (f + 1)%Z
  else if Z.even f then f else (f + 1)%Z.

(** ** Facts *)
Lemma linspace_length a b n : length (linspace a b n) = n.
Proof. destruct n as [|[|n]]; [reflexivity|reflexivity|]. unfold linspace. rewrite map_length, seq_length. reflexivity. Qed.
Lemma linspace_nth a b n k d : (k < n)%nat ->
  nth k (linspace a b n) d = a + NQ k * ((b - a) / NQ (n - 1)).
Proof.
  intros H. destruct n as [|[|n]]; [lia| |].
  - assert (k = 0)%nat as -> by lia. simpl. rewrite NQ_0. ring.
  - unfold linspace. rewrite (nth_indep _ d (a + NQ 0 * ((b - a) / NQ (S n)))) by (rewrite map_length, seq_length; lia).
    rewrite (map_nth (fun k => a + NQ k * ((b - a) / NQ (S n)))). rewrite seq_nth by lia. simpl Nat.sub. reflexivity.
Qed.
Lemma linspace_step x0 dx n k d : (k < n)%nat -> nth k (linspace x0 (x0 + dx * NQ (n - 1)) n) d = x0 + NQ k * dx.
Proof.
  intros H. rewrite linspace_nth by exact H. destruct (Nat.eq_dec (n - 1) 0) as [E|E].
  - assert (k = 0)%nat as -> by lia. rewrite NQ_0. ring.
  - pose proof (NQ_nz _ E). field. auto.
Qed.

Lemma fold_qmin_le l : forall x, fold_left qmin l x <= x /\ forall y, In y l -> fold_left qmin l x <= y.
Proof.
  induction l as [|a l IH]; intros x; cbn [fold_left]; [split; [apply Qcle_refl|intros y []]|].
  destruct (IH (qmin x a)) as [H1 H2]. unfold qmin in *.
  destruct (qle_spec x a) as [H|H]; [|apply Qcnot_le_lt in H]; split; try (intros y [<-|Hy]); auto; qlra'.
Qed.
Lemma fold_qmin_in l : forall x, fold_left qmin l x = x \/ In (fold_left qmin l x) l.
Proof.
  induction l as [|a l IH]; intros x; cbn [fold_left]; [auto|].
  destruct (IH (qmin x a)) as [H|H]; [|simpl; auto]. rewrite H. unfold qmin. destruct (qle x a); simpl; auto.
Qed.
Lemma fold_qmax_ge l : forall x, x <= fold_left qmax l x /\ forall y, In y l -> y <= fold_left qmax l x.
Proof.
  induction l as [|a l IH]; intros x; cbn [fold_left]; [split; [apply Qcle_refl|intros y []]|].
  destruct (IH (qmax x a)) as [H1 H2]. unfold qmax in *.
  destruct (qle_spec x a) as [H|H]; [|apply Qcnot_le_lt in H]; split; try (intros y [<-|Hy]); auto; qlra'.
Qed.
Lemma fold_qmax_in l : forall x, fold_left qmax l x = x \/ In (fold_left qmax l x) l.
Proof.
  induction l as [|a l IH]; intros x; cbn [fold_left]; [auto|].
  destruct (IH (qmax x a)) as [H|H]; [|simpl; auto]. rewrite H. unfold qmax. destruct (qle x a); simpl; auto.
Qed.
Lemma list_min_spec l m : list_min l = Some m <-> In m l /\ forall y, In y l -> m <= y.
Proof.
  destruct l as [|x l]; simpl.
  - split; [discriminate|intros [[] _]].
  - destruct (fold_qmin_le l x) as [H1 H2]. pose proof (fold_qmin_in l x) as H3. split.
    + intros E. injection E as E. subst m. split; [destruct H3; auto|]. intros y [<-|Hy]; auto.
    + intros [Hm Hle]. f_equal. apply qc_le_antisym.
      * destruct Hm as [<-|Hm]; auto.
      * apply Hle. destruct H3 as [->|H3]; auto.
Qed.
Lemma list_max_spec l m : list_max l = Some m <-> In m l /\ forall y, In y l -> y <= m.
Proof.
  destruct l as [|x l]; simpl.
  - split; [discriminate|intros [[] _]].
  - destruct (fold_qmax_ge l x) as [H1 H2]. pose proof (fold_qmax_in l x) as H3. split.
    + intros E. injection E as E. subst m. split; [destruct H3; auto|]. intros y [<-|Hy]; auto.
    + intros [Hm Hle]. f_equal. apply qc_le_antisym.
      * apply Hle. destruct H3 as [->|H3]; auto.
      * destruct Hm as [<-|Hm]; auto.
Qed.
Lemma list_min_none l : list_min l = None <-> l = [].
Proof. destruct l; simpl; split; intros; congruence. Qed.
Lemma list_max_none l : list_max l = None <-> l = [].
Proof. destruct l; simpl; split; intros; congruence. Qed.

(** Sorted, distinct lists. *)
Inductive increasing : list Qc -> Prop :=
| inc_nil : increasing []
| inc_cons x l : (forall y, In y l -> x < y) -> increasing l -> increasing (x :: l).

Lemma uinsert_in x l y : In y (uinsert x l) <-> y = x \/ In y l.
Proof.
  induction l as [|z l IH]; simpl; [intuition|].
  destruct (qlt x z); [simpl; intuition|]. destruct (qeq_spec x z) as [->|N]; simpl; [intuition|]. rewrite IH. intuition.
Qed.
Lemma uinsert_inc x l : increasing l -> increasing (uinsert x l).
Proof.
  induction 1 as [|z l Hz Hl IH]; simpl; [constructor; [intros ? []|constructor]|].
  destruct (qlt_spec x z) as [H|H].
  - constructor; [|constructor; auto]. intros y [<-|Hy]; auto. specialize (Hz y Hy). qlra'.
  - apply Qcnot_lt_le in H. destruct (qeq_spec x z) as [->|N]; [constructor; auto|].
    constructor; auto. intros y Hy. apply uinsert_in in Hy. destruct Hy as [->|Hy]; auto.
    destruct (qc_lt_trich x z) as [K|[K|K]]; auto; [qlra|congruence].
Qed.
Lemma unique_in l y : In y (unique l) <-> In y l.
Proof. induction l as [|x l IH]; simpl; [tauto|]. rewrite uinsert_in, IH. intuition. Qed.
Lemma unique_inc l : increasing (unique l).
Proof. induction l; simpl; [constructor|]. apply uinsert_inc. auto. Qed.
Lemma increasing_ext l m : increasing l -> increasing m -> (forall x, In x l <-> In x m) -> l = m.
Proof.
  intros Hl; revert m; induction Hl as [|x l Hx Hl IH]; intros m Hm H.
  - destruct m as [|y m]; auto. exfalso. apply (H y). left; auto.
  - destruct Hm as [|y m Hy Hm]. { exfalso. apply (H x). left; auto. }
    assert (x = y).
    { destruct (proj1 (H x) (or_introl eq_refl)) as [->|A]; auto.
      destruct (proj2 (H y) (or_introl eq_refl)) as [->|B]; auto.
      specialize (Hx _ B). specialize (Hy _ A). exfalso. qlra. }
    subst y. f_equal. apply IH; auto. intros z. split; intros Hz.
    + destruct (proj1 (H z) (or_intror Hz)) as [<-|K]; auto. exfalso. specialize (Hx _ Hz). qlra.
    + destruct (proj2 (H z) (or_intror Hz)) as [<-|K]; auto. exfalso. specialize (Hy _ Hz). qlra.
Qed.
Lemma increasing_nodup l : increasing l -> NoDup l.
Proof.
  induction 1 as [|x l Hx Hl IH]; constructor; auto. intros K. specialize (Hx _ K). revert Hx. apply Qcle_not_lt, Qcle_refl.
Qed.
Lemma unique_inc_id l : increasing l -> unique l = l.
Proof. intros H. apply increasing_ext; [apply unique_inc|auto|]. apply unique_in. Qed.

Lemma argmin_from_spec l : forall best bi i,
  let r := argmin_from best bi i l in
  (r = bi /\ forall y, In y l -> best <= y) \/
  (exists k y, nth_error l k = Some y /\ r = (i + k)%nat /\ y < best /\ (forall z, In z l -> y <= z) /\
     forall k' z, (k' < k)%nat -> nth_error l k' = Some z -> y < z).
Proof.
  induction l as [|x l IH]; intros best bi i; cbn [argmin_from].
  - left. split; [auto|intros y []].
  - destruct (qlt_spec x best) as [H|H].
    + right. destruct (IH x i (S i)) as [[E Hle]|(k & y & E1 & E2 & E3 & E4 & E5)].
      * exists 0%nat, x. simpl. rewrite E. split; [auto|split; [lia|split; [auto|split]]].
        -- intros z [<-|Hz]; [apply Qcle_refl|auto].
        -- intros k' z Hk. lia.
      * exists (S k), y. simpl. rewrite E2. split; [auto|split; [lia|split; [qlra'|split]]].
        -- intros z [<-|Hz]; [apply qc_lt_le; auto|auto].
        -- intros [|k'] z Hk Hz; simpl in Hz; [injection Hz as <-; auto|]. eapply E5; [|exact Hz]. lia.
    + apply Qcnot_lt_le in H. destruct (IH best bi (S i)) as [[E Hle]|(k & y & E1 & E2 & E3 & E4 & E5)].
      * left. split; auto. intros y [<-|Hy]; auto.
      * right. exists (S k), y. simpl. rewrite E2. split; [auto|split; [lia|split; [auto|split]]].
        -- intros z [<-|Hz]; [qlra'|auto].
        -- intros [|k'] z Hk Hz; simpl in Hz; [injection Hz as <-; qlra'|]. eapply E5; [|exact Hz]. lia.
Qed.
(** [argmin] returns the first index of a smallest element. *)
Lemma argmin_spec l k : argmin l = Some k ->
  exists y, nth_error l k = Some y /\ (forall z, In z l -> y <= z) /\
    forall k' z, (k' < k)%nat -> nth_error l k' = Some z -> y < z.
Proof.
  destruct l as [|x l]; simpl; [discriminate|]. intros H. injection H as <-.
  destruct (argmin_from_spec l x 0 1) as [[E Hle]|(j & y & E1 & E2 & E3 & E4 & E5)].
  - rewrite E. exists x. simpl. split; [auto|split].
    + intros z [<-|Hz]; [apply Qcle_refl|auto].
    + intros k' z Hk. lia.
  - rewrite E2. exists y. simpl. split; [auto|split].
    + intros z [<-|Hz]; [apply qc_lt_le; auto|auto].
    + intros [|k'] z Hk Hz; simpl in Hz; [injection Hz as <-; auto|]. eapply E5; [|exact Hz]. lia.
Qed.
Lemma argmin_lt l k : argmin l = Some k -> (k < length l)%nat.
Proof. intros H. apply argmin_spec in H. destruct H as (y & E & _). apply nth_error_Some. congruence. Qed.
Lemma argmin_some l : l <> [] -> exists k, argmin l = Some k.
Proof. destruct l; [congruence|]. simpl. eauto. Qed.

(** Rounding facts. *)
Lemma qfloor_spec q : ZQ (qfloor q) <= q /\ q < ZQ (qfloor q) + 1.
Proof.
  unfold qfloor. set (n := Qnum (this q)). set (d := Qden (this q)).
  assert (E : Qeq (this q) (Qmake n d)) by (unfold n, d; destruct (this q); reflexivity).
  pose proof (Z.mod_pos_bound n (Z.pos d) ltac:(lia)) as M. pose proof (Z.div_mod n (Z.pos d) ltac:(lia)) as D.
  split.
  - unfold Qcle. rewrite this_ZQ, E. unfold Qle, inject_Z. cbn [Qnum Qden]. lia.
  - unfold Qclt. rewrite this_plus, this_ZQ, E. change (this 1) with (1 # 1)%Q.
    unfold Qlt, Qplus, inject_Z. cbn [Qnum Qden]. lia.
Qed.
Lemma qfloor_unique q z : ZQ z <= q -> q < ZQ z + 1 -> qfloor q = z.
Proof.
  intros H1 H2. destruct (qfloor_spec q) as [F1 F2].
  assert (A : ZQ z < ZQ (qfloor q) + 1) by qlra'. assert (B : ZQ (qfloor q) < ZQ z + 1) by qlra'.
  rewrite <- ZQ_1, <- ZQ_add in A, B. apply (proj1 (ZQ_lt _ _)) in A. apply (proj1 (ZQ_lt _ _)) in B. lia.
Qed.
Lemma qfloor_ZQ z : qfloor (ZQ z) = z.
Proof. apply qfloor_unique; qlra'. Qed.
Lemma qceil_floor q : qceil q = (- qfloor (- q))%Z.
Proof.
  unfold qceil. f_equal. symmetry. apply qfloor_unique.
  - set (n := Qnum (this q)). set (d := Qden (this q)).
    assert (E : Qeq (this (- q)) (Qmake (- n) d)).
    { rewrite this_opp. unfold n, d. destruct (this q); reflexivity. }
    pose proof (Z.mod_pos_bound (- n) (Z.pos d) ltac:(lia)) as M. pose proof (Z.div_mod (- n) (Z.pos d) ltac:(lia)) as D.
    unfold Qcle. rewrite this_ZQ, E. unfold Qle, inject_Z. cbn [Qnum Qden]. lia.
  - set (n := Qnum (this q)). set (d := Qden (this q)).
    assert (E : Qeq (this (- q)) (Qmake (- n) d)).
    { rewrite this_opp. unfold n, d. destruct (this q); reflexivity. }
    pose proof (Z.mod_pos_bound (- n) (Z.pos d) ltac:(lia)) as M. pose proof (Z.div_mod (- n) (Z.pos d) ltac:(lia)) as D.
    unfold Qclt. rewrite this_plus, this_ZQ, E. change (this 1) with (1 # 1)%Q.
    unfold Qlt, Qplus, inject_Z. cbn [Qnum Qden]. lia.
Qed.
Lemma qceil_spec q : q <= ZQ (qceil q) /\ ZQ (qceil q) < q + 1.
Proof. rewrite qceil_floor, ZQ_opp. destruct (qfloor_spec (- q)). split; qlra'. Qed.
Lemma qceil_unique q z : q <= ZQ z -> ZQ z < q + 1 -> qceil q = z.
Proof.
  intros H1 H2. rewrite qceil_floor. rewrite (qfloor_unique (- q) (- z)); [lia| |]; rewrite ZQ_opp; qlra'.
Qed.
Lemma qceil_ZQ z : qceil (ZQ z) = z.
Proof. apply qceil_unique; qlra'. Qed.
Lemma qround_ZQ z : qround (ZQ z) = z.
Proof.
  unfold qround. rewrite qfloor_ZQ.
  destruct (qlt_spec (ZQ z - ZQ z) (Q2Qc (1 # 2))) as [H|H]; auto.
  exfalso. apply H. replace (ZQ z - ZQ z) with 0 by ring. reflexivity.
Qed.
Lemma qround_near q : qabs (q - ZQ (qround q)) <= Q2Qc (1 # 2).
Proof.
  unfold qround. destruct (qfloor_spec q) as [F1 F2]. apply qabs_le.
  destruct (qlt_spec (q - ZQ (qfloor q)) (Q2Qc (1 # 2))) as [H|H].
  - split; qlra'.
  - apply Qcnot_lt_le in H. destruct (qlt_spec (Q2Qc (1 # 2)) (q - ZQ (qfloor q))) as [K|K].
    + rewrite ZQ_add, ZQ_1. split; qlra'.
    + apply Qcnot_lt_le in K. destruct (Z.even (qfloor q)); rewrite ?ZQ_add, ?ZQ_1; split; qlra'.
Qed.
Lemma qtrunc_nonneg q : 0 <= q -> qtrunc q = qfloor q.
Proof.
  intros H. unfold qtrunc, qfloor. apply Z.quot_div_nonneg; [|lia].
  unfold Qcle in H. unfold Qle in H. simpl in H. lia.
Qed.
