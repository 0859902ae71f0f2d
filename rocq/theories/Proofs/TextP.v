(** Facts about text: splitting, and numbers which are written and read back. *)
From Coq Require Import String Ascii Decimal DecimalString DecimalFacts DecimalN Nnat NArith.
From Verif.Base Require Import QcX Res Np Bytes.
From Verif.Model Require Import Utils Text.
From Verif.Proofs Require Import UtilsFiles.
Local Open Scope list_scope.

Lemma txt_app a b : txt (a ++ b)%string = txt a ++ txt b.
Proof. unfold txt. induction a; simpl; [reflexivity|]. rewrite IHa. reflexivity. Qed.
Lemma txt_length s : length (txt s) = String.length s.
Proof. unfold txt. induction s; simpl; [reflexivity|]. f_equal. assumption. Qed.

(** ** words *)
Definition plain (b : byte) : Prop := is_space b = false.
Lemma words_tok w : Forall plain w -> forall tok s, words_from tok (w ++ s) = words_from (tok ++ w) s.
Proof.
  induction 1 as [|b w Hb _ IH]; intros tok s; simpl; [rewrite app_nil_r; reflexivity|].
  rewrite Hb, IH. rewrite <- app_assoc. reflexivity.
Qed.
Lemma words_space sp w : forall s, Forall plain w -> w <> [] -> is_space sp = true -> words (w ++ sp :: s) = w :: words s.
Proof.
  intros s Hw Hn Hs. unfold words. rewrite words_tok by assumption. simpl. rewrite Hs. destruct w; [congruence|reflexivity].
Qed.
Lemma words_end w : Forall plain w -> w <> [] -> words w = [w].
Proof. intros Hw Hn. unfold words. rewrite <- (app_nil_r w) at 1. rewrite words_tok by assumption. simpl. destruct w; [congruence|reflexivity]. Qed.
Lemma words_skip sps s : Forall (fun b => is_space b = true) sps -> words (sps ++ s) = words s.
Proof. induction 1 as [|b sps Hb _ IH]; [reflexivity|]. unfold words in *. simpl. rewrite Hb. assumption. Qed.
Lemma words_cons_space b s : is_space b = true -> words (b :: s) = words s.
Proof. intros H. apply (words_skip [b]). constructor; [assumption|constructor]. Qed.

(** ** lines *)
Definition unbroken (b : byte) : Prop := is_break b = false.
Lemma lines_tok w : Forall unbroken w -> forall l s, lines_from l (w ++ s) = lines_from (l ++ w) s.
Proof.
  induction 1 as [|b w Hb _ IH]; intros l s; [rewrite app_nil_r; reflexivity|].
  cbn [app lines_from]. rewrite Hb, IH. rewrite <- app_assoc. reflexivity.
Qed.
Lemma lines_newline w s : Forall unbroken w -> lines (w ++ chr 10 :: s) = w :: lines s.
Proof. intros H. unfold lines. rewrite lines_tok by assumption. reflexivity. Qed.

(** ** numbers *)
Lemma string_txt s : string_of_list_ascii (txt s) = s.
Proof. apply string_of_list_ascii_of_string. Qed.
Definition is_digit (b : byte) : Prop := (48 <= code b <= 57)%Z.
Lemma digit_plain b : is_digit b -> plain b.
Proof. unfold is_digit, plain, is_space. intros H. apply orb_false_iff. split; apply andb_false_iff; [right|right]; apply Z.leb_gt; lia. Qed.
Lemma digit_unbroken b : is_digit b -> unbroken b.
Proof. unfold is_digit, unbroken, is_break. intros H. apply orb_false_iff. split; apply andb_false_iff; right; apply Z.leb_gt; lia. Qed.
Lemma uint_digits u : Forall is_digit (txt (NilEmpty.string_of_uint u)).
Proof. unfold txt. induction u; simpl; constructor; try assumption; unfold is_digit; vm_compute; split; discriminate. Qed.
Lemma dec_digits n : Forall is_digit (txt (dec n)).
Proof. apply uint_digits. Qed.
Lemma zeros_digits k : Forall is_digit (txt (zeros k)).
Proof. unfold txt. induction k; simpl; constructor; try assumption. unfold is_digit; vm_compute; split; discriminate. Qed.
Lemma dec_nonempty n : txt (dec n) <> [].
Proof.
  unfold dec. destruct (N.to_uint n) eqn:E; simpl; try discriminate. exfalso.
  pose proof (Unsigned.of_to n) as H. rewrite E in H. simpl in H. subst n. discriminate.
Qed.
Lemma uint_of_padded k n : NilEmpty.uint_of_string (zeros k ++ dec n) = Some (pad k (N.to_uint n)).
Proof. rewrite uint_of_zeros, uint_of_dec. reflexivity. Qed.
Lemma digits_padded k n : digits (txt (zeros k ++ dec n)%string) = Some (Z.of_N n).
Proof.
  unfold digits. rewrite string_txt, uint_of_padded.
  destruct (txt (zeros k ++ dec n)) eqn:E.
  - exfalso. rewrite txt_app in E. apply app_eq_nil in E. apply (dec_nonempty n). apply E.
  - f_equal. f_equal. clear E. induction k; simpl; [apply Unsigned.of_to|]. exact IHk.
Qed.
Lemma digits_dec n : digits (txt (dec n)) = Some (Z.of_N n).
Proof. exact (digits_padded 0 n). Qed.

Lemma of_uint_acc_ge u : forall acc, (Pos.to_nat acc * 10 ^ nb_digits u <= Pos.to_nat (Pos.of_uint_acc u acc))%nat.
Proof.
  induction u; intros acc; cbn [nb_digits Pos.of_uint_acc Nat.pow]; try lia;
  (eapply Nat.le_trans; [|apply IHu]; rewrite Nat.mul_assoc; apply Nat.mul_le_mono_r; lia).
Qed.
Lemma uint_length u : String.length (NilEmpty.string_of_uint u) = nb_digits u.
Proof. induction u; simpl; congruence. Qed.
Lemma of_nat_pow10 k : N.of_nat (10 ^ k) = (10 ^ N.of_nat k)%N.
Proof. induction k; [reflexivity|]. rewrite Nat2N.inj_succ, N.pow_succ_r', <- IHk. cbn [Nat.pow]. lia. Qed.
Lemma dec_length n k : (0 < k)%nat -> (n < 10 ^ N.of_nat k)%N -> (String.length (dec n) <= k)%nat.
Proof.
  intros Hk Hn. unfold dec. rewrite uint_length. pose proof (Unsigned.to_of (N.to_uint n)) as U. rewrite Unsigned.of_to in U.
  pose proof (Unsigned.of_to n) as O. set (u := N.to_uint n) in *.
  assert (Pow : forall p q, (10 ^ nb_digits p <= q)%nat -> (N.of_nat q < 10 ^ N.of_nat k)%N -> (S (nb_digits p) <= k)%nat).
  { intros p q H1 H2. assert (N.of_nat (10 ^ nb_digits p) <= N.of_nat q)%N by lia. rewrite of_nat_pow10 in H.
    assert (10 ^ N.of_nat (nb_digits p) < 10 ^ N.of_nat k)%N as L by lia.
    apply N.pow_lt_mono_r_iff in L; lia. }
  destruct u as [|p|p|p|p|p|p|p|p|p|p]; cbn [nb_digits]; [lia| |apply (Pow p (N.to_nat n)); [|rewrite N2Nat.id; assumption]; rewrite <- O; cbn [N.of_uint Pos.of_uint]; rewrite positive_N_nat;
    (eapply Nat.le_trans; [|apply of_uint_acc_ge]); match goal with |- (?a <= Pos.to_nat ?p * ?b)%nat => assert (1 <= Pos.to_nat p)%nat by lia; nia end ..].
  (* leading zero: only for n = 0 *)
  assert (p = Nil) as ->; [|simpl; lia].
  clear -U. unfold unorm in U. simpl in U. destruct (nzhead p) eqn:E; try discriminate; [injection U as <-; reflexivity|].
  exfalso. apply (nzhead_invol p) || idtac. pose proof (nzhead_nonzero p u) as H. apply H. assumption.
Qed.

(** [int] reads what ["{}".format] writes. *)
Lemma digits_head s b : Forall is_digit s -> hd_error s = Some b -> (48 <= code b <= 57)%Z.
Proof. intros H E. destruct s; [discriminate|]. injection E as ->. inversion H. assumption. Qed.
Lemma signed_unsigned {A} (f : bytes -> option A) neg s : Forall is_digit s -> signed f neg s = f s.
Proof.
  intros H. destruct s as [|b s]; [reflexivity|]. inversion H as [|? ? Hb _]; subst. unfold is_digit in Hb. unfold signed.
  destruct (Z.eqb_spec (code b) 45); [lia|]. destruct (Z.eqb_spec (code b) 43); [lia|]. reflexivity.
Qed.
Lemma to_int_fmt z : to_int (fmt_int z) = Ok z.
Proof.
  unfold to_int, fmt_int. destruct (Z.ltb_spec z 0).
  - rewrite txt_app. change (txt "-") with [chr 45]. cbn [app signed]. change (code (chr 45) =? 45)%Z with true. cbn iota.
    rewrite digits_dec. cbn [option_map of_option]. f_equal. rewrite Z2N.id by lia. lia.
  - rewrite signed_unsigned by apply dec_digits. rewrite digits_dec. cbn [of_option]. f_equal. apply Z2N.id. assumption.
Qed.
Lemma plain_minus : plain (chr 45). Proof. reflexivity. Qed.
Lemma plain_dot : plain (chr 46). Proof. reflexivity. Qed.
Lemma Forall_plain s : Forall is_digit s -> Forall plain s.
Proof. apply Forall_impl. exact digit_plain. Qed.
Lemma fmt_int_plain z : Forall plain (fmt_int z) /\ fmt_int z <> [].
Proof.
  unfold fmt_int. destruct (z <? 0)%Z.
  - rewrite txt_app. change (txt "-") with [chr 45]. split; [constructor; [reflexivity|apply Forall_plain, dec_digits]|discriminate].
  - split; [apply Forall_plain, dec_digits|apply dec_nonempty].
Qed.

(** [float] reads what ['%f'] writes, to six decimals. *)
Lemma split_dot_digits a b : Forall is_digit a -> split_dot (a ++ chr 46 :: b) = (a, Some b).
Proof.
  induction 1 as [|c a Hc _ IH]; [reflexivity|]. cbn [app split_dot]. unfold is_digit in Hc. destruct (Z.eqb_spec (code c) 46); [lia|]. rewrite IH. reflexivity.
Qed.
Lemma fixed6_eq n : exists i f, fixed6 n = i ++ chr 46 :: f /\ Forall is_digit i /\ Forall is_digit f /\ i <> [] /\ f <> [] /\
  ((0 <= n)%Z -> length f = 6%nat /\ digits i = Some (n / 10 ^ 6)%Z /\ digits f = Some (n mod 10 ^ 6)%Z).
Proof.
  exists (txt (dec (Z.to_N (n / 10 ^ 6)))), (txt (zeros (6 - String.length (dec (Z.to_N (n mod 10 ^ 6)))) ++ dec (Z.to_N (n mod 10 ^ 6)))%string).
  pose proof (Z.mod_pos_bound n (10 ^ 6) ltac:(lia)) as B.
  split; [unfold fixed6; rewrite !txt_app; reflexivity|]. split; [apply dec_digits|]. split; [rewrite txt_app; apply Forall_app; split; [apply zeros_digits|apply dec_digits]|].
  split; [apply dec_nonempty|]. split. { rewrite txt_app. intros C. apply app_eq_nil in C. apply (dec_nonempty (Z.to_N (n mod 10 ^ 6))). apply C. }
  intros H. assert (String.length (dec (Z.to_N (n mod 10 ^ 6))) <= 6)%nat as L. { apply dec_length; [lia|]. change (10 ^ N.of_nat 6)%N with 1000000%N. lia. }
  split. { rewrite txt_app, app_length, !txt_length, zeros_length. lia. }
  rewrite digits_padded, digits_dec, !Z2N.id by (try lia; apply Z.div_pos; lia). auto.
Qed.
Lemma udecimal_fixed6 n : (0 <= n)%Z -> udecimal (fixed6 n) = Some (ZQ n / ZQ (10 ^ 6)).
Proof.
  intros H. destruct (fixed6_eq n) as (i & f & E & Di & Df & Ni & Nf & K). destruct (K H) as (L & Vi & Vf).
  unfold udecimal. rewrite E, split_dot_digits by assumption. destruct i as [|i0 i]; [congruence|]. destruct f as [|f0 f]; [congruence|].
  rewrite Vi, Vf, L. f_equal. change (Z.of_nat 6) with 6%Z. rewrite (Z.div_mod n (10 ^ 6)) at 3 by lia. rewrite ZQ_add, ZQ_mul. field.
  intros C. apply (ZQ_inj _ 0) in C. lia.
Qed.
Lemma qround_nonneg q : 0 <= q -> (0 <= qround q)%Z.
Proof. intros H. apply qround_ge. assumption. Qed.
Lemma scaled_nonneg x : 0 <= qabs x * ZQ (10 ^ 6).
Proof. apply qmult_nonneg; [apply qabs_nonneg|rewrite <- ZQ_0; apply ZQ_le; lia]. Qed.
Lemma to_float_fmt x : to_float (fmt_f x) = Ok (round6 x).
Proof.
  unfold to_float, fmt_f, round6. set (n := qround (qabs x * ZQ (10 ^ 6))). assert (0 <= n)%Z as Hn by (apply qround_nonneg, scaled_nonneg).
  destruct (qlt x 0).
  - cbn [signed]. change (code (chr 45) =? 45)%Z with true. cbn iota. rewrite udecimal_fixed6 by assumption. reflexivity.
  - assert (signed udecimal Qcopp (fixed6 n) = udecimal (fixed6 n)) as ->.
    { destruct (fixed6_eq n) as (i & f & E & Di & _ & Ni & _). rewrite E. destruct i as [|b i]; [congruence|]. inversion Di as [|? ? Hb _]; subst. unfold is_digit in Hb.
      cbn [app signed]. destruct (Z.eqb_spec (code b) 45); [lia|]. destruct (Z.eqb_spec (code b) 43); [lia|]. reflexivity. }
    rewrite udecimal_fixed6 by assumption. reflexivity.
Qed.
Lemma fixed6_plain n : Forall plain (fixed6 n) /\ fixed6 n <> [].
Proof.
  destruct (fixed6_eq n) as (i & f & E & Di & Df & Ni & _). rewrite E. split.
  - apply Forall_app. split; [apply Forall_plain; assumption|]. constructor; [reflexivity|apply Forall_plain; assumption].
  - destruct i; [congruence|discriminate].
Qed.
Lemma fmt_f_plain x : Forall plain (fmt_f x) /\ fmt_f x <> [].
Proof.
  unfold fmt_f. destruct (fixed6_plain (qround (qabs x * ZQ (10 ^ 6)))) as [A B]. destruct (qlt x 0); [|auto]. split; [constructor; [reflexivity|assumption]|discriminate].
Qed.
Lemma plain_unbroken b : plain b -> unbroken b.
Proof.
  unfold plain, unbroken, is_space, is_break. intros H. apply orb_false_iff in H. destruct H as [H1 H2]. apply orb_false_iff.
  apply andb_false_iff in H1, H2. split; apply andb_false_iff.
  - destruct H1 as [H1|H1]; [left|right]; [apply Z.leb_gt in H1; apply Z.leb_gt; lia|assumption].
  - destruct H2 as [H2|H2]; [left; assumption|right]. apply Z.leb_gt in H2. apply Z.leb_gt. lia.
Qed.

(** The rounded number: at most half a millionth away, the number itself if it has at most six decimals. *)
Lemma round6_near x : qabs (round6 x - x) <= Q2Qc (1 # 2000000).
Proof.
  unfold round6. pose proof (qround_near (qabs x * ZQ (10 ^ 6))) as N. set (n := qround (qabs x * ZQ (10 ^ 6))) in *.
  assert (qabs (ZQ n / ZQ (10 ^ 6) - qabs x) <= Q2Qc (1 # 2000000)) as K.
  { apply qabs_le in N. apply qabs_le. destruct N as [N1 N2]. change (10 ^ 6)%Z with 1000000%Z in *. generalize dependent (qabs x). intros a N1 N2. split; qlra'. }
  destruct (qlt_spec x 0) as [L|L].
  - assert (qabs x = - x) as Ex. { unfold qabs. destruct (qle_spec 0 x); [exfalso; qlra|reflexivity]. }
    rewrite Ex in K. replace (- (ZQ n / ZQ (10 ^ 6)) - x) with (- (ZQ n / ZQ (10 ^ 6) - - x)) by ring. rewrite qabs_opp. exact K.
  - assert (qabs x = x) as Ex. { unfold qabs. destruct (qle_spec 0 x) as [_|C]; [reflexivity|]. exfalso. apply C, Qcnot_lt_le. assumption. }
    rewrite Ex in K. exact K.
Qed.
Lemma round6_exact z : round6 (ZQ z / ZQ (10 ^ 6)) = ZQ z / ZQ (10 ^ 6).
Proof.
  assert (ZQ (10 ^ 6) <> 0) as NZ by (intros C; apply (ZQ_inj _ 0) in C; lia).
  assert (0 < ZQ (10 ^ 6)) as P by (rewrite <- ZQ_0; apply ZQ_lt; lia).
  set (x := ZQ z / ZQ (10 ^ 6)). assert (x * ZQ (10 ^ 6) = ZQ z) as E by (unfold x; field; assumption).
  unfold round6. destruct (qlt_spec x 0) as [L|L].
  - assert (qabs x = - x) as Ex. { unfold qabs. destruct (qle_spec 0 x); [exfalso; qlra|reflexivity]. }
    rewrite Ex. replace (- x * ZQ (10 ^ 6)) with (ZQ (- z)) by (rewrite ZQ_opp, <- E; ring). rewrite qround_ZQ, ZQ_opp. unfold x. field. assumption.
  - assert (qabs x = x) as Ex. { unfold qabs. destruct (qle_spec 0 x) as [_|C]; [reflexivity|]. exfalso. apply C, Qcnot_lt_le. assumption. }
    rewrite Ex, E, qround_ZQ. reflexivity.
Qed.
