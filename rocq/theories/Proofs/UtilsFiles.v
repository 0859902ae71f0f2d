From Coq Require Import List ZArith String Ascii Bool Decimal DecimalString DecimalN DecimalFacts Lia Permutation.
From Coq Require Import ZifyBool ZifyNat ZifyN.
From Verif.Base Require Import Res.
From Verif.Model Require Import Utils.
From Verif.Spec Require Import FilesSpec.
Import ListNotations.
Local Open Scope string_scope.
Local Open Scope Z_scope.

(** *** Strings *)
Lemma app_string_assoc a b c : (a ++ b) ++ c = a ++ (b ++ c).
Proof. induction a as [|x a IH]; simpl; congruence. Qed.
Lemma app_string_inv_l a b c : a ++ b = a ++ c -> b = c.
Proof. induction a as [|x a IH]; simpl; intros H; [exact H|]. injection H as H. auto. Qed.
Lemma app_string_length a b : String.length (a ++ b) = (String.length a + String.length b)%nat.
Proof. induction a as [|x a IH]; simpl; congruence. Qed.
Lemma app_string_inv_len a a' b b' :
  String.length a = String.length a' -> a ++ b = a' ++ b' -> a = a' /\ b = b'.
Proof.
  revert a'; induction a as [|x a IH]; intros [|y a']; simpl; intros L H; try discriminate; auto.
  injection H as -> H. injection L as L. destruct (IH _ L H) as [-> ->]. auto.
Qed.
Lemma app_string_inv_r a b c : a ++ c = b ++ c -> a = b.
Proof.
  intros H. apply (app_string_inv_len a b c c); auto.
  apply (f_equal String.length) in H. rewrite !app_string_length in H. lia.
Qed.
Lemma zeros_length n : String.length (zeros n) = n.
Proof. induction n; simpl; congruence. Qed.

(** *** Decimal text *)
Lemma uint_of_dec n : NilEmpty.uint_of_string (dec n) = Some (N.to_uint n).
Proof. unfold dec. apply NilEmpty.usu. Qed.

Fixpoint pad (k : nat) (u : uint) : uint := match k with O => u | S k => D0 (pad k u) end.
Lemma uint_of_zeros k s : NilEmpty.uint_of_string (zeros k ++ s) = option_map (pad k) (NilEmpty.uint_of_string s).
Proof.
  induction k as [|k IH]; simpl.
  - destruct (NilEmpty.uint_of_string s); reflexivity.
  - rewrite IH. destruct (NilEmpty.uint_of_string s); reflexivity.
Qed.
Lemma of_uint_pad k u : N.of_uint (pad k u) = N.of_uint u.
Proof. induction k; simpl; auto. Qed.

Lemma dec_inj m n : dec m = dec n -> m = n.
Proof.
  intros H. apply (f_equal NilEmpty.uint_of_string) in H. rewrite !uint_of_dec in H.
  injection H as H. apply DecimalN.Unsigned.to_uint_inj. exact H.
Qed.

Lemma padded_inj j k m n : zeros j ++ dec m = zeros k ++ dec n -> m = n.
Proof.
  intros H. apply (f_equal NilEmpty.uint_of_string) in H.
  rewrite !uint_of_zeros, !uint_of_dec in H. cbn [option_map] in H. injection H as H.
  apply (f_equal N.of_uint) in H. rewrite !of_uint_pad, !DecimalN.Unsigned.of_to in H. exact H.
Qed.

Lemma uint_string_head_minus u t : NilEmpty.string_of_uint u <> String "-" t.
Proof. destruct u; simpl; discriminate. Qed.
Lemma zeros_head_minus k u t : zeros k ++ NilEmpty.string_of_uint u <> String "-" t.
Proof. destruct k; simpl; [apply uint_string_head_minus|discriminate]. Qed.

Lemma fmt05d_inj a b : fmt05d a = fmt05d b -> a = b.
Proof.
  unfold fmt05d. cbv zeta.
  destruct (a <? 0) eqn:Ha, (b <? 0) eqn:Hb; intros H.
  - apply app_string_inv_l in H. apply padded_inj in H. lia.
  - symmetry in H. exfalso. revert H. apply zeros_head_minus.
  - exfalso. revert H. apply zeros_head_minus.
  - apply padded_inj in H. lia.
Qed.

Lemma fname_inj base ext a b : fname base a ext = fname base b ext -> a = b.
Proof.
  unfold fname. intros H. apply app_string_inv_l in H. apply app_string_inv_r in H.
  apply fmt05d_inj. exact H.
Qed.

Lemma string_of_uint_head u t : NilEmpty.string_of_uint u = String "0" t -> exists v, u = D0 v.
Proof. destruct u; simpl; intros H; try discriminate. eauto. Qed.

Lemma to_uint_no_lead0 n v : N.to_uint n = D0 v -> n = 0%N.
Proof.
  intros H. pose proof (DecimalN.Unsigned.to_of (N.to_uint n)) as E.
  rewrite DecimalN.Unsigned.of_to in E.
  assert (E2 : N.to_uint n = unorm (D0 v)) by congruence.
  rewrite H in E2. unfold unorm in E2. simpl in E2.
  destruct (nzhead v) eqn:Ev; try discriminate.
  - injection E2 as ->. apply DecimalN.Unsigned.to_uint_inj. exact H.
  - exfalso. pose proof (nzhead_nonzero v u) as K. congruence.
Qed.

Lemma fmt05d_text z : 0 <= z -> five_digit_text (fmt05d z) z.
Proof.
  intros Hz. unfold fmt05d. replace (z <? 0) with false by lia. cbv zeta.
  set (s := dec (Z.to_N z)). set (k := (5 - String.length s)%nat).
  exists (pad k (N.to_uint (Z.to_N z))). split; [|split; [|split]].
  - rewrite uint_of_zeros. unfold s. rewrite uint_of_dec. reflexivity.
  - rewrite of_uint_pad, DecimalN.Unsigned.of_to. lia.
  - rewrite app_string_length, zeros_length. lia.
  - rewrite app_string_length, zeros_length. intros Hl t.
    assert (K0 : k = 0%nat) by lia. rewrite K0. simpl. intros E. unfold s, dec in E.
    destruct (string_of_uint_head _ _ E) as [v Hv].
    pose proof (to_uint_no_lead0 _ _ Hv) as E0.
    unfold k, s in *. rewrite E0 in Hl. simpl in Hl. lia.
Qed.

(** *** Generators *)
Lemma numbers_length b n : List.length (numbers b n) = n.
Proof. revert b; induction n; simpl; auto. Qed.
Lemma numbers_nth b n k : (k < n)%nat -> nth_error (numbers b n) k = Some (b + Z.of_nat k).
Proof.
  revert b k; induction n as [|n IH]; intros b [|k] H; try lia; cbn [numbers nth_error].
  - f_equal. lia.
  - rewrite IH by lia. f_equal. lia.
Qed.
Lemma in_numbers z b n : In z (numbers b n) <-> b <= z < b + Z.of_nat n.
Proof.
  revert b; induction n as [|n IH]; intros b; cbn [numbers In]; [lia|].
  rewrite IH. lia.
Qed.
Lemma numbers_app b n m : numbers b (n + m) = (numbers b n ++ numbers (b + Z.of_nat n) m)%list.
Proof.
  revert b; induction n as [|n IH]; intros b; cbn [numbers List.app Nat.add].
  - f_equal. lia.
  - f_equal. rewrite IH. f_equal. f_equal. lia.
Qed.

Lemma gen_upto fuel base b e ext :
  gen_filenames fuel base b (Upto e) ext =
  map (fun k => fname base k ext) (numbers b (Nat.min fuel (Z.to_nat (e - b + 1)))).
Proof.
  revert b; induction fuel as [|fuel IH]; intros b; [reflexivity|].
  cbn [gen_filenames gen_next le_bound]. unfold gen_next, le_bound. destruct (b <=? e) eqn:E.
  - rewrite IH.
    replace (Nat.min (S fuel) (Z.to_nat (e - b + 1)))
      with (S (Nat.min fuel (Z.to_nat (e - (b + 1) + 1)))) by lia.
    reflexivity.
  - replace (Nat.min (S fuel) (Z.to_nat (e - b + 1))) with 0%nat by lia. reflexivity.
Qed.
Lemma gen_inf fuel base b ext :
  gen_filenames fuel base b Inf ext = map (fun k => fname base k ext) (numbers b fuel).
Proof.
  revert b; induction fuel as [|fuel IH]; intros b; [reflexivity|].
  cbn [gen_filenames]. unfold gen_next, le_bound. rewrite IH. reflexivity.
Qed.

(** *** Search for single files *)
Definition good (fs : fsys) base e ext (z : Z) : Prop :=
  match e with Upto m => z <= m | Inf => True end /\ fs (fname base z ext) = true.

Lemma good_dec fs base e ext z : {good fs base e ext z} + {~ good fs base e ext z}.
Proof.
  unfold good. destruct (fs (fname base z ext)) eqn:E.
  - destruct e as [m|]; [destruct (Z_le_gt_dec z m); [left|right]; [auto|lia] | left; auto].
  - right. intros [_ H]. discriminate.
Qed.

Lemma le_bound_iff z e : le_bound z e = true <-> match e with Upto m => z <= m | Inf => True end.
Proof. destruct e; simpl; [lia|tauto]. Qed.

Lemma run_length_step (g : Z -> Prop) b n : g b -> (run_length g b (S n) <-> run_length g (b + 1) n).
Proof.
  intros Hb. unfold run_length. split; intros [H1 H2]; split.
  - intros k Hk. replace (b + 1 + k) with (b + (k + 1)) by lia. apply H1. lia.
  - replace (b + 1 + Z.of_nat n) with (b + Z.of_nat (S n)) by lia. exact H2.
  - intros k Hk. destruct (Z.eq_dec k 0) as [->|]; [rewrite Z.add_0_r; auto|].
    replace (b + k) with (b + 1 + (k - 1)) by lia. apply H1. lia.
  - replace (b + Z.of_nat (S n)) with (b + 1 + Z.of_nat n) by lia. exact H2.
Qed.
Lemma run_length_unique (g : Z -> Prop) b n m : run_length g b n -> run_length g b m -> n = m.
Proof.
  intros [A1 A2] [B1 B2]. destruct (lt_eq_lt_dec n m) as [[H|H]|H]; auto.
  - exfalso. apply A2. apply B1. lia.
  - exfalso. apply B2. apply A1. lia.
Qed.

Lemma yield_singles_run fs base e ext n : forall fuel b found,
  run_length (good fs base e ext) b n -> (n < fuel)%nat ->
  yield_singles fuel fs base b e ext found =
    Ok (map (fun k => fname base k ext) (numbers b n),
        Nat.eqb n 0 && negb found && le_bound b e).
Proof.
  induction n as [|n IH]; intros fuel b found Hr Hf; (destruct fuel as [|fuel]; [lia|]);
  cbn [yield_singles]; unfold gen_next.
  - destruct Hr as [_ Hr]. rewrite Z.add_0_r in Hr. destruct (le_bound b e) eqn:E.
    + destruct (fs (fname base b ext)) eqn:E2.
      * exfalso. apply Hr. split; auto. apply le_bound_iff; auto.
      * simpl. rewrite andb_true_r. reflexivity.
    + simpl. rewrite andb_false_r. reflexivity.
  - assert (Hg : good fs base e ext b).
    { destruct Hr as [Hr _]. specialize (Hr 0). rewrite Z.add_0_r in Hr. apply Hr. lia. }
    apply run_length_step in Hr; [|exact Hg].
    destruct Hg as [Hg1 Hg2]. apply le_bound_iff in Hg1. rewrite Hg1, Hg2.
    rewrite (IH fuel (b + 1) true) by (auto; lia). cbn [rbind numbers map].
    rewrite andb_false_r. reflexivity.
Qed.

(** A run exists when the range is finite or only finitely many files exist. *)
Lemma run_exists_bounded (g : Z -> Prop) (gd : forall z, {g z} + {~ g z}) m : forall b,
  ~ g (b + Z.of_nat m) -> exists n, (n <= m)%nat /\ run_length g b n.
Proof.
  induction m as [|m IH]; intros b H.
  - exists 0%nat. split; [lia|]. split; [lia|]. exact H.
  - destruct (gd b) as [Hb|Hb].
    + destruct (IH (b + 1)) as (n & Hn & Hr).
      { replace (b + 1 + Z.of_nat m) with (b + Z.of_nat (S m)) by lia. exact H. }
      exists (S n). split; [lia|]. apply run_length_step; auto.
    + exists 0%nat. split; [lia|]. split; [lia|]. rewrite Z.add_0_r. exact Hb.
Qed.

Lemma finite_fs_bound (names : list string) base e ext b :
  exists m, (m <= List.length names)%nat /\
    ~ good (fun s => existsb (String.eqb s) names) base e ext (b + Z.of_nat m).
Proof.
  set (fs := fun s => existsb (String.eqb s) names).
  assert (D : {exists m, (m <= List.length names)%nat /\ ~ good fs base e ext (b + Z.of_nat m)} +
              {forall m, (m <= List.length names)%nat -> good fs base e ext (b + Z.of_nat m)}).
  { generalize (List.length names). intros K. induction K as [|K IH].
    - destruct (good_dec fs base e ext (b + Z.of_nat 0)).
      + right. intros m Hm. assert (m = 0%nat) as -> by lia. auto.
      + left. exists 0%nat. auto.
    - destruct IH as [IH|IH].
      + left. destruct IH as (m & Hm & H). exists m. split; [lia|auto].
      + destruct (good_dec fs base e ext (b + Z.of_nat (S K))).
        * right. intros m Hm. destruct (Nat.eq_dec m (S K)) as [->|]; auto. apply IH. lia.
        * left. exists (S K). auto. }
  destruct D as [D|D]; [exact D|exfalso].
  set (l := map (fun k => fname base (b + Z.of_nat k) ext) (seq 0 (S (List.length names)))).
  assert (ND : NoDup l).
  { unfold l. apply FinFun.Injective_map_NoDup; [|apply seq_NoDup].
    intros x y H. apply fname_inj in H. lia. }
  assert (IN : incl l names).
  { intros s Hs. unfold l in Hs. apply in_map_iff in Hs. destruct Hs as (k & <- & Hk).
    apply in_seq in Hk. destruct (D k ltac:(lia)) as [_ H]. unfold fs in H.
    apply existsb_exists in H. destruct H as (x & Hx & E). apply String.eqb_eq in E. subst x. exact Hx. }
  pose proof (NoDup_incl_length ND IN) as K. unfold l in K. rewrite map_length, seq_length in K. lia.
Qed.

Lemma find_singles_finite names base begin e ext :
  let fs := fun s => existsb (String.eqb s) names in
  exists n, (n <= List.length names)%nat /\
    run_length (fun z => match e with Upto m => z <= m | Inf => True end /\ In (fname base z ext) names) begin n /\
    forall fuel, (List.length names < fuel)%nat ->
      find_datamap_singles fuel fs base begin e ext =
      Ok (map (fun k => fname base k ext) (numbers begin n),
          Nat.eqb n 0 && le_bound begin e).
Proof.
  intros fs. destruct (finite_fs_bound names base e ext begin) as (m & Hm & Hg).
  destruct (run_exists_bounded _ (good_dec fs base e ext) m begin Hg) as (n & Hn & Hr).
  exists n. split; [lia|]. split.
  - assert (Q : forall z, good fs base e ext z <->
        (match e with Upto m => z <= m | Inf => True end /\ In (fname base z ext) names)).
    { intros z. unfold good, fs. rewrite existsb_exists. split; intros [A B]; split; auto.
      - destruct B as (x & Hx & E). apply String.eqb_eq in E. subst; auto.
      - eexists. split; [exact B|apply String.eqb_refl]. }
    destruct Hr as [R1 R2]. split.
    + intros k Hk. apply Q. auto.
    + intros H. apply R2. apply Q. exact H.
  - intros fuel Hf. unfold find_datamap_singles.
    rewrite (yield_singles_run fs base e ext n) by (auto; lia).
    rewrite andb_true_r. reflexivity.
Qed.

(** *** Groups *)
Lemma good_restrict fs base e ext z m :
  (match e with Upto k => m <= k | Inf => True end) -> z <= m ->
  (good fs base (Upto m) ext z <-> good fs base e ext z).
Proof. intros H Hz. unfold good. destruct e; intuition lia. Qed.

(* inner search when at least g files remain, and when fewer remain *)
Lemma inner_full fs base e ext b n (g : nat) :
  run_length (good fs base e ext) b n -> (g <= n)%nat ->
  (match e with Upto k => b + Z.of_nat g - 1 <= k | Inf => True end) ->
  yield_singles (S (Z.to_nat (Z.of_nat g))) fs base b (Upto (b + Z.of_nat g - 1)) ext false =
  Ok (map (fun k => fname base k ext) (numbers b g),
      Nat.eqb g 0 && negb false && le_bound b (Upto (b + Z.of_nat g - 1))).
Proof.
  intros [R1 R2] Hg He. apply yield_singles_run; [|lia]. split.
  - intros k Hk. apply (good_restrict _ _ e); [exact He|lia|]. apply R1. lia.
  - intros [H _]. lia.
Qed.
Lemma inner_short fs base e ext b n (g : nat) :
  run_length (good fs base e ext) b n -> (n < g)%nat ->
  (match e with Upto k => b + Z.of_nat g - 1 <= k | Inf => True end) ->
  yield_singles (S (Z.to_nat (Z.of_nat g))) fs base b (Upto (b + Z.of_nat g - 1)) ext false =
  Ok (map (fun k => fname base k ext) (numbers b n),
      Nat.eqb n 0 && negb false && le_bound b (Upto (b + Z.of_nat g - 1))).
Proof.
  intros [R1 R2] Hg He. apply yield_singles_run; [|lia]. split.
  - intros k Hk. apply (good_restrict _ _ e); [exact He|lia|]. apply R1. lia.
  - intros H. apply R2. apply (good_restrict _ _ e) in H; [exact H|exact He|lia].
Qed.

Lemma run_shift (g : Z -> Prop) b n k : run_length g b n -> (k <= n)%nat -> run_length g (b + Z.of_nat k) (n - k).
Proof.
  intros [R1 R2] H. split.
  - intros j Hj. replace (b + Z.of_nat k + j) with (b + (Z.of_nat k + j)) by lia. apply R1. lia.
  - replace (b + Z.of_nat k + Z.of_nat (n - k)) with (b + Z.of_nat n) by lia. exact R2.
Qed.

Lemma run_not_beyond fs base e ext b n (g : nat) :
  run_length (good fs base e ext) b n -> (0 < g)%nat -> (g <= n)%nat -> le_bound (b + Z.of_nat g - 1) e = true.
Proof.
  intros [R1 _] H0 H. apply le_bound_iff.
  destruct (R1 (Z.of_nat g - 1) ltac:(lia)) as [A _].
  replace (b + (Z.of_nat g - 1)) with (b + Z.of_nat g - 1) in A by lia. exact A.
Qed.

(** All groups in closed form: [step] = 1 (rolling) or g, [cnt] groups. *)
Lemma yield_groups_run fs base e ext (g : nat) (rolling : bool) (cnt : nat) : (0 < g)%nat ->
  let step := if rolling then 1%nat else g in
  forall b n fuel,
  run_length (good fs base e ext) b n ->
  (forall i, (i < cnt)%nat -> (i * step + g <= n)%nat) -> (n < cnt * step + g)%nat ->
  (cnt < fuel)%nat ->
  yield_groups fuel fs base b (b + Z.of_nat g - 1) e ext (Z.of_nat g) rolling =
  Ok (map (fun i => map (fun k => fname base k ext) (numbers (b + Z.of_nat (i * step)) g)) (seq 0 cnt)).
Proof.
  intros Hg step. induction cnt as [|cnt IH]; intros b n fuel Hr H1 H2 Hf;
  (destruct fuel as [|fuel]; [lia|]); cbn [yield_groups].
  - destruct (le_bound (b + Z.of_nat g - 1) e) eqn:E; [|reflexivity].
    rewrite (inner_short fs base e ext b n g) by (auto; try lia; apply le_bound_iff; auto).
    cbn [rbind]. rewrite map_length, numbers_length.
    replace (Z.of_nat n =? Z.of_nat g) with false by lia. reflexivity.
  - pose proof (H1 0%nat ltac:(lia)) as H0. simpl in H0.
    rewrite (run_not_beyond fs base e ext b n g) by auto.
    rewrite (inner_full fs base e ext b n g).
    2: exact Hr. 2: lia. 2: (apply le_bound_iff; apply (run_not_beyond fs base e ext b n g); auto).
    cbn [rbind]. rewrite map_length, numbers_length. rewrite Z.eqb_refl.
    set (st := if rolling then 1 else Z.of_nat g).
    assert (Est : st = Z.of_nat step) by (unfold st, step; destruct rolling; reflexivity).
    rewrite Est.
    replace (b + Z.of_nat g - 1 + Z.of_nat step) with (b + Z.of_nat step + Z.of_nat g - 1) by lia.
    assert (Hs : (step <= n)%nat) by (unfold step; destruct rolling; lia).
    rewrite (IH (b + Z.of_nat step) (n - step)%nat fuel).
    + cbn [rbind seq map]. f_equal. f_equal.
      * f_equal. f_equal. lia.
      * rewrite <- seq_shift, map_map. apply map_ext. intros i. f_equal. f_equal. lia.
    + apply run_shift; auto.
    + intros i Hi. pose proof (H1 (S i) ltac:(lia)). lia.
    + lia.
    + lia.
Qed.

Lemma groups_count_plain g n : (0 < g)%nat ->
  (forall i, (i < n / g)%nat -> (i * g + g <= n)%nat) /\ (n < n / g * g + g)%nat.
Proof.
  intros Hg. pose proof (Nat.div_mod n g ltac:(lia)) as D. pose proof (Nat.mod_upper_bound n g ltac:(lia)) as M.
  split; [|nia]. intros i Hi. nia.
Qed.

Lemma skipn_numbers b n k : (k <= n)%nat -> skipn k (numbers b n) = numbers (b + Z.of_nat k) (n - k).
Proof.
  intros H. replace n with (k + (n - k))%nat at 1 by lia. rewrite numbers_app, skipn_app, numbers_length.
  rewrite skipn_all2 by (rewrite numbers_length; lia). rewrite Nat.sub_diag. reflexivity.
Qed.
Lemma firstn_numbers b n k : (k <= n)%nat -> firstn k (numbers b n) = numbers b k.
Proof.
  intros H. replace n with (k + (n - k))%nat by lia. rewrite numbers_app, List.firstn_app, numbers_length.
  rewrite firstn_all2 by (rewrite numbers_length; lia). rewrite Nat.sub_diag. simpl. apply List.app_nil_r.
Qed.
Lemma window_numbers b n g k : (k + g <= n)%nat -> window g k (numbers b n) = numbers (b + Z.of_nat k) g.
Proof. intros H. unfold window. rewrite skipn_numbers by lia. apply firstn_numbers. lia. Qed.
Lemma window_map {A B} (f : A -> B) g k l : window g k (map f l) = map f (window g k l).
Proof. unfold window. rewrite skipn_map, firstn_map. reflexivity. Qed.

(** Relation of the grouped to the single search, for finitely many files. *)
Lemma groups_of_singles names base begin e ext (g : nat) (rolling : bool) : (0 < g)%nat ->
  let fs := fun s => existsb (String.eqb s) names in
  exists l w, (forall fuel, (List.length names < fuel)%nat -> find_datamap_singles fuel fs base begin e ext = Ok (l, w)) /\
    forall fuel, (List.length names + 1 < fuel)%nat ->
      find_datamap_groups fuel fs base begin e ext (Z.of_nat g) rolling =
      Ok (if rolling then map (fun k => window g k l) (seq 0 (List.length l + 1 - g))
          else map (fun i => window g (i * g) l) (seq 0 (List.length l / g))).
Proof.
  intros Hg fs. destruct (find_singles_finite names base begin e ext) as (n & Hn & Hr & Hs).
  exists (map (fun k => fname base k ext) (numbers begin n)), (Nat.eqb n 0 && le_bound begin e).
  split; [exact Hs|]. intros fuel Hf. unfold find_datamap_groups.
  assert (Hr' : run_length (good fs base e ext) begin n).
  { assert (Q : forall z, good fs base e ext z <->
        (match e with Upto m => z <= m | Inf => True end /\ In (fname base z ext) names)).
    { intros z. unfold good, fs. rewrite existsb_exists. split; intros [A B]; split; auto.
      - destruct B as (x & Hx & E). apply String.eqb_eq in E. subst; auto.
      - eexists. split; [exact B|apply String.eqb_refl]. }
    destruct Hr as [R1 R2]. split.
    + intros k Hk. apply Q. auto.
    + intros H. apply R2. apply Q. exact H. }
  rewrite map_length, numbers_length. destruct rolling.
  - pose proof (yield_groups_run fs base e ext g true (n + 1 - g) Hg begin n fuel Hr') as Y. cbv zeta in Y.
    rewrite Y by (try intros; lia). f_equal. apply map_ext_in. intros k Hk. apply in_seq in Hk.
    rewrite window_map, window_numbers by lia. rewrite Nat.mul_1_r. reflexivity.
  - destruct (groups_count_plain g n Hg) as [G1 G2].
    pose proof (yield_groups_run fs base e ext g false (n / g) Hg begin n fuel Hr') as Y. cbv zeta in Y.
    rewrite Y; auto.
    + f_equal. apply map_ext_in. intros k Hk. apply in_seq in Hk.
      rewrite window_map, window_numbers; [reflexivity|]. apply G1. lia.
    + pose proof (Nat.div_le_upper_bound n g n ltac:(lia) ltac:(nia)). lia.
Qed.

Lemma skipn_skipn_add {A} a b (l : list A) : skipn a (skipn b l) = skipn (b + a) l.
Proof. revert l. induction b as [|b IH]; intros l; [reflexivity|]. destruct l; simpl; [apply skipn_nil|]. apply IH. Qed.

Lemma concat_chunks {A} (g : nat) m : forall (l : list A), (m * g <= List.length l)%nat ->
  List.concat (map (fun i => window g (i * g) l) (seq 0 m)) = firstn (m * g) l.
Proof.
  induction m as [|m IH]; intros l H; [reflexivity|].
  cbn [seq map List.concat]. rewrite <- seq_shift, map_map.
  rewrite (map_ext _ (fun i => window g (i * g) (skipn g l))).
  2:{ intros i. unfold window. rewrite skipn_skipn_add. reflexivity. }
  rewrite IH by (rewrite skipn_length; nia).
  unfold window. simpl skipn. cbn [Nat.mul].
  rewrite <- (firstn_skipn g l) at 3. rewrite firstn_app, firstn_firstn.
  rewrite Nat.min_r by lia. f_equal. f_equal. rewrite firstn_length. nia.
Qed.

(** group = 0 without rolling: the generator never ends. *)
Lemma groups_zero_forever fs base begin ext fuel :
  yield_groups fuel fs base begin (begin + 0 - 1) Inf ext 0 false = Err OutOfFuel.
Proof.
  induction fuel as [|fuel IH]; [reflexivity|].
  cbn [yield_groups le_bound]. cbn [Z.to_nat yield_singles]. unfold gen_next. cbn [le_bound].
  replace (begin <=? begin + 0 - 1) with false by lia. cbn [rbind List.length Z.of_nat]. rewrite Z.eqb_refl.
  replace (begin + 0) with begin by lia. replace (begin - 1 + 0) with (begin + 0 - 1) by lia.
  rewrite IH. reflexivity.
Qed.

(** *** Output numbering *)
Lemma zip_next_ok {A} (l : list A) base e ext num :
  (forall k, (k < List.length l)%nat -> le_bound (num + Z.of_nat k) e = true) ->
  zip_next l base e ext num = Ok (combine l (map (fun k => fname base k ext) (numbers num (List.length l)))).
Proof.
  revert num; induction l as [|a l IH]; intros num H; [reflexivity|].
  cbn [zip_next]. unfold gen_next. pose proof (H 0%nat) as H0. cbn [List.length Z.of_nat] in H0. rewrite Z.add_0_r in H0.
  rewrite H0 by lia. rewrite IH.
  - reflexivity.
  - intros k Hk. replace (num + 1 + Z.of_nat k) with (num + Z.of_nat (S k)) by lia. apply H. cbn [List.length]. lia.
Qed.

Lemma ceil_div_spec a b : 0 < b -> b * (ceil_div a b - 1) < a <= b * ceil_div a b.
Proof.
  intros Hb. unfold ceil_div. pose proof (Z.div_mod (- a) b ltac:(lia)) as D.
  pose proof (Z.mod_pos_bound (- a) b Hb). nia.
Qed.
Lemma ceil_div_unique a b k : 0 < b -> b * (k - 1) < a <= b * k -> k = ceil_div a b.
Proof. intros Hb H. pose proof (ceil_div_spec a b Hb). nia. Qed.
Lemma ceil_div_shift a b k : 0 < b -> ceil_div (a + k * b) b = ceil_div a b + k.
Proof. intros Hb. symmetry. apply ceil_div_unique; auto. pose proof (ceil_div_spec a b Hb). nia. Qed.
