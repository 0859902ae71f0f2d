(** Proofs about cutting maps before averaging, and about failing runs. *)
From Coq Require Import String Permutation.
From Verif.Base Require Import QcX Res Np ListX Sums Bytes.
From Verif.Model Require Import Bins Text Gmx Simple Formats Average.
From Verif.Model Require SimpleAverage Sample.
From Verif.Model Require Import Utils.
From Verif.Spec Require Import FilesSpec DiskSpec MapSpec AverageSpec.
From Verif.Proofs Require Import UtilsFiles UtilsDisk UtilsTop TextP GmxP GmxRoundP SimpleP FormatsP SimpleAverageP RecentreP AverageFilesP.
From Verif.Props Require Import GmxProps SimpleProps FormatsProps.
Local Open Scope list_scope.

Definition in_range_b (l : option Qc * option Qc) (v : Qc) : bool :=
  ((match fst l with Some a => qle a v | None => true end) && (match snd l with Some b => qle v b | None => true end))%bool.
Lemma in_range_b_iff l v : in_range_b l v = true <-> in_range l v.
Proof.
  unfold in_range_b, in_range. destruct l as [[a|] [b|]]; cbn [fst snd]; rewrite andb_true_iff, ?qle_true; split.
  all: try (intros [A B]; split; intros z Hz; inversion Hz; subst; assumption).
  all: intros [A B]; split; auto.
Qed.
Definition inside (xlim ylim : option Qc * option Qc) (b : bin) : bool := (in_range_b xlim (bX b) && in_range_b ylim (bY b))%bool.
Lemma cut_filter xlim ylim m : m <> [] -> cut_system xlim ylim m = Ok (filter (inside xlim ylim) m).
Proof.
  intros Hne. unfold cut_system.
  assert (forall f : bin -> Qc, exists lo hi, list_min (map f m) = Some lo /\ list_max (map f m) = Some hi /\ forall b, In b m -> lo <= f b <= hi) as HM.
  { intros f. destruct (list_min (map f m)) as [lo|] eqn:E1; [|apply list_min_none in E1; destruct m; [congruence|discriminate]].
    destruct (list_max (map f m)) as [hi|] eqn:E2; [|apply list_max_none in E2; destruct m; [congruence|discriminate]].
    exists lo, hi. split; [reflexivity|]. split; [reflexivity|]. apply list_min_spec in E1. apply list_max_spec in E2. intros b Hb. split; [apply E1|apply E2]; apply in_map; exact Hb. }
  destruct (HM bX) as (xl & xh & -> & -> & HX). destruct (HM bY) as (yl & yh & -> & -> & HY). cbn [of_option].
  assert (forall {A} (o : option A) (v : A), (match o with Some v => Ok v | None => Ok v end) = Ok (match o with Some v => v | None => v end)) as EO by (intros A [a|] v; reflexivity).
  rewrite !EO. cbn [rbind]. apply f_equal. apply filter_ext_in. intros b Hb. specialize (HX b Hb). specialize (HY b Hb). unfold inside, in_range_b.
  destruct HX as [HX1 HX2]. destruct HY as [HY1 HY2]. apply qle_true in HX1, HX2, HY1, HY2.
  destruct (fst xlim), (snd xlim), (fst ylim), (snd ylim); rewrite ?HX1, ?HX2, ?HY1, ?HY2; cbn [andb]; rewrite ?andb_true_r; try reflexivity; rewrite ?andb_assoc; reflexivity.
Qed.
Lemma cut_to_filter o m : m <> [] -> cut_to o m (filter (inside (a_xlim o) (a_ylim o)) m).
Proof.
  intros Hne. unfold cut_to. destruct (limited o) eqn:E; [apply cut_filter; exact Hne|].
  unfold limited in E. apply negb_false_iff, andb_true_iff in E. destruct E as [E1 E2]. unfold Sample.no_limit in *.
  destruct (a_xlim o) as [[|] [|]]; try discriminate. destruct (a_ylim o) as [[|] [|]]; try discriminate. rewrite filter_all by reflexivity. reflexivity.
Qed.
Lemma convex_interval (P : nat -> Prop) (Pdec : forall i, {P i} + {~ P i}) : (forall i j k, (i < j < k)%nat -> P i -> P k -> P j) ->
  forall n, exists a N, (a + N <= n)%nat /\ forall i, (i < n)%nat -> P i <-> (a <= i < a + N)%nat.
Proof.
  intros HC. induction n as [|n (a & N & H1 & H2)].
  - exists 0%nat, 0%nat. split; [lia|]. intros i Hi. lia.
  - destruct (Pdec n) as [HP|HP].
    + destruct (Nat.eq_dec N 0) as [->|HN].
      * exists n, 1%nat. split; [lia|]. intros i Hi. destruct (Nat.eq_dec i n) as [->|Hin]; [split; [lia|auto]|]. rewrite H2 by lia. lia.
      * assert (a + N = n)%nat as E. { destruct (Nat.eq_dec (a + N) n) as [|Hne]; [assumption|]. exfalso.
          assert (P (a + N)%nat) as K. { apply (HC a (a + N)%nat n); [lia| |exact HP]. apply H2; lia. } apply H2 in K; lia. }
        exists a, (N + 1)%nat. split; [lia|]. intros i Hi. destruct (Nat.eq_dec i n) as [->|Hin]; [split; [lia|auto]|]. rewrite H2 by lia. lia.
    + exists a, N. split; [lia|]. intros i Hi. destruct (Nat.eq_dec i n) as [->|Hin]; [split; [contradiction|lia]|]. apply H2. lia.
Qed.
Lemma range_columns_exist l x0 dx n : 0 < dx -> exists a N, range_columns l x0 dx n a N.
Proof.
  intros Hdx. unfold range_columns. apply (convex_interval (fun i => in_range l (x0 + NQ i * dx))).
  - intros i. destruct (in_range_b l (x0 + NQ i * dx)) eqn:E; [left; apply in_range_b_iff; exact E|right; intros K; apply in_range_b_iff in K; congruence].
  - intros i j k Hijk [A1 A2] [B1 B2].
    assert (forall a b, (a < b)%nat -> x0 + NQ a * dx <= x0 + NQ b * dx) as M.
    { intros a b Hab. rewrite !NQ_ZQ. apply (shift_le 2 2 x0 dx dx); [lia|lia|exact Hdx|exact Hdx|lia]. }
    split; intros v Hv; [eapply Qcle_trans; [apply A1; exact Hv|apply M; lia]|apply Qcle_trans with (x0 + NQ k * dx); [apply M; lia|apply B2; exact Hv]].
Qed.
Lemma filter_rows {A} (p : A -> bool) n m (f : nat -> nat -> A) (q : nat -> bool) b N : (b + N <= m)%nat -> (forall i j, (i < n)%nat -> (j < m)%nat -> p (f i j) = (Nat.leb b j && Nat.ltb j (b + N))%bool) ->
  filter p (grid n m f) = grid n N (fun i j => f i (b + j)%nat).
Proof.
  intros H. revert f. induction n as [|n IH]; intros f HP; [reflexivity|]. rewrite !grid_S, filter_app. rewrite IH by (intros; apply HP; lia). f_equal.
  assert (forall j, (j < m)%nat -> p (f 0%nat j) = (Nat.leb b j && Nat.ltb j (b + N))%bool) as HP0 by (intros; apply HP; lia). clear IH HP.
  replace m with (b + (N + (m - b - N)))%nat by lia. rewrite !seq_app, !map_app, !filter_app.
  rewrite (filter_none p (map (f 0%nat) (seq 0 b))), (filter_all p (map _ (seq (0 + b) N))), (filter_none p (map _ (seq (0 + b + N) _))).
  - cbn [app]. rewrite app_nil_r. cbn [Nat.add]. assert (forall s k, map (f 0%nat) (seq (b + s) k) = map (fun j => f 0%nat (b + j)%nat) (seq s k)) as E.
    { intros s k. revert s. induction k as [|k IHk]; intros s; [reflexivity|]. cbn [seq map]. f_equal. rewrite <- IHk. replace (b + S s)%nat with (S (b + s)) by lia. reflexivity. }
    rewrite <- (Nat.add_0_r b) at 1. apply E.
  - intros x Hx. apply in_map_iff in Hx. destruct Hx as (j & <- & Hj). apply in_seq in Hj. rewrite HP0 by lia. apply andb_false_iff. right. apply Nat.ltb_ge. lia.
  - intros x Hx. apply in_map_iff in Hx. destruct Hx as (j & <- & Hj). apply in_seq in Hj. rewrite HP0 by lia. apply andb_true_intro. split; [apply Nat.leb_le|apply Nat.ltb_lt]; lia.
  - intros x Hx. apply in_map_iff in Hx. destruct Hx as (j & <- & Hj). apply in_seq in Hj. rewrite HP0 by lia. apply andb_false_iff. left. apply Nat.leb_gt. lia.
Qed.
Lemma filter_andb {A} (p q : A -> bool) l : filter (fun x => (p x && q x)%bool) l = filter q (filter p l).
Proof. induction l as [|x l IH]; [reflexivity|]. cbn [filter]. destruct (p x); cbn [andb filter]; rewrite IH; reflexivity. Qed.
Lemma filter_part xlim ylim m nx ny x0 y0 dx dy a NX b NY : column_grid m nx ny x0 y0 dx dy -> range_columns xlim x0 dx nx a NX -> range_columns ylim y0 dy ny b NY ->
  filter (inside xlim ylim) m = part m ny a NX b NY.
Proof.
  intros [HL HP] [HX1 HX2] [HY1 HY2]. unfold inside. rewrite filter_andb. rewrite (grid_of_list m nx ny bin0 HL) at 1.
  rewrite (filter_columns (fun x => in_range_b xlim (bX x)) nx ny a NX) by
    (try exact HX1; intros i j Hi Hj; destruct (HP i j Hi Hj) as [-> _]; apply eq_true_iff_eq; rewrite in_range_b_iff, (HX2 i Hi), andb_true_iff, Nat.leb_le, Nat.ltb_lt; reflexivity).
  rewrite (filter_rows (fun x => in_range_b ylim (bY x)) NX ny _ (fun _ => true) b NY) by
    (try exact HY1; intros i j Hi Hj; destruct (HP (a + i)%nat j ltac:(lia) Hj) as [_ ->]; apply eq_true_iff_eq; rewrite in_range_b_iff, (HY2 j Hj), andb_true_iff, Nat.leb_le, Nat.ltb_lt; reflexivity).
  reflexivity.
Qed.
Lemma part_grid m nx ny x0 y0 dx dy a NX b NY : column_grid m nx ny x0 y0 dx dy -> (a + NX <= nx)%nat -> (b + NY <= ny)%nat ->
  column_grid (part m ny a NX b NY) NX NY (x0 + NQ a * dx) (y0 + NQ b * dy) dx dy.
Proof.
  intros [HL HP] HX HY. split; [apply grid_length|]. intros i j Hi Hj. unfold part. cbv zeta. rewrite grid_nth by assumption. destruct (HP (a + i)%nat (b + j)%nat ltac:(lia) ltac:(lia)) as [-> ->].
  rewrite !NQ_add. split; ring.
Qed.
Lemma part_in m nx ny a NX b NY c : length m = (nx * ny)%nat -> (a + NX <= nx)%nat -> (b + NY <= ny)%nat -> In c (part m ny a NX b NY) -> In c m.
Proof. intros HL HX HY H. apply in_grid in H. destruct H as (i & j & Hi & Hj & ->). apply nth_In. rewrite HL. nia. Qed.
Lemma cut_to_part o m nx ny x0 y0 dx dy a NX b NY : (0 < nx * ny)%nat -> column_grid m nx ny x0 y0 dx dy -> range_columns (a_xlim o) x0 dx nx a NX -> range_columns (a_ylim o) y0 dy ny b NY ->
  cut_to o m (part m ny a NX b NY).
Proof.
  intros H0 HG HX HY. rewrite <- (filter_part _ _ _ _ _ _ _ _ _ _ _ _ _ HG HX HY). apply cut_to_filter. intros ->. destruct HG as [HL _]. cbn in HL. lia.
Qed.
Lemma part_all m nx ny : length m = (nx * ny)%nat -> part m ny 0 nx 0 ny = m.
Proof. intros HL. symmetry. exact (grid_of_list m nx ny bin0 HL). Qed.

(** ** Writing maps of the wrong size *)
Lemma gmx_wrong_size b i : length b <> (Z.to_nat (fst (g_shape i)) * Z.to_nat (snd (g_shape i)))%nat -> gmx_write (dict_of_bins b) i = Err IndexErr.
Proof.
  intros H. unfold gmx_write, key, dict_of_bins. cbn [get String.eqb Ascii.eqb Bool.eqb of_option rbind]. unfold masked at 1. rewrite grid_length, !map_length.
  destruct (Nat.eqb_spec (Z.to_nat (fst (g_shape i)) * Z.to_nat (snd (g_shape i))) (length b)) as [E|_]; [congruence|]. reflexivity.
Qed.
(** A write which fails: nothing is lost, and nothing or an empty file is written. *)
Lemma write_map_fails d p b i e d' : wf d -> write_map d p b i = (d', Some e) ->
  wf d' /\ (forall q, q <> p -> exists_path d q = true -> lookup (files d') q = lookup (files d) q) /\
  ((Permutation (contents d') (contents d) /\ lookup (files d') p = None) \/
   (Permutation (contents d') (contents d ++ [""%string]) /\ lookup (files d') p = Some ""%string /\ w_origin i = None)).
Proof.
  intros Hw. unfold write_map. destruct (prepare_effect d p Hw) as (ops & EP & HE). rewrite EP. specialize (HE ops [] ltac:(rewrite app_nil_r; reflexivity)). cbv zeta in HE. destruct HE as (W1 & P1 & F1 & N1).
  specialize (N1 eq_refl). unfold exists_path in N1. destruct (lookup (files (exec_ops d ops)) p) eqn:EL; [discriminate|].
  destruct (gmx_write _ _) as [file|e'] eqn:EW.
  - destruct (w_origin i) as [og|] eqn:EO; [discriminate|]. intros E. injection E as <- <-.
    destruct (do_call_spec d p [] Hw) as (d2 & E2 & W2 & P2 & L2 & F2).
    unfold do_call, write_ops in E2. cbn [fst snd] in E2. rewrite EP in E2. cbn [rbind map] in E2. unfold exec_ops in E2. rewrite fold_left_app in E2. cbn [fold_left] in E2. injection E2 as E2.
    change (fold_left exec_op ops d) with (exec_ops d ops) in E2. rewrite E2. split; [exact W2|]. split; [exact F2|]. right. split; [exact P2|]. split; [exact L2|reflexivity].
  - intros E. injection E as <- <-. split; [exact W1|]. split; [exact F1|]. left. split; [exact P1|exact EL].
Qed.
