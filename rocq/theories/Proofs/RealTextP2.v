(** The text of ['%g'] and how it is read. *)
From Coq Require Import String Ascii Decimal DecimalString DecimalFacts NArith Reals Qreals.
From Verif.Base Require Import QcX QcR Res Np Bytes.
From Verif.Model Require Import Utils Text Simple PyText Table RealText.
From Verif.Spec Require Import TableSpec CliSpec RealTextSpec.
From Verif.Proofs Require Import UtilsFiles PyTextP TextP SimpleP TableP RealTextP.
From Coq Require Import Lra.
Local Open Scope list_scope.
Local Notation length := List.length.

(** ** Runs of digits *)
Fixpoint dval (s : bytes) : Z := match s with [] => 0%Z | b :: s => ((code b - 48) * 10 ^ Z.of_nat (length s) + dval s)%Z end.
Lemma dval_app a b : dval (a ++ b) = (dval a * 10 ^ Z.of_nat (length b) + dval b)%Z.
Proof.
  induction a as [|x a IH]; cbn [app dval]; [lia|]. rewrite IH, app_length, Nat2Z.inj_add, Z.pow_add_r by lia. ring.
Qed.
Lemma dval_numeral s : Forall is_digit s -> s <> [] -> numeral s (dval s) (length s).
Proof.
  induction s as [|b s IH]; intros HF HN; [contradiction|]. inversion HF as [|? ? Hb HF']; subst. unfold is_digit in Hb. destruct s as [|c s].
  - cbn [dval length]. replace ((code b - 48) * 10 ^ Z.of_nat 0 + 0)%Z with (code b - 48)%Z by (change (10 ^ Z.of_nat 0)%Z with 1%Z; ring). constructor. split; lia.
  - cbn [dval]. apply (num_more b (code b - 48) (c :: s) (dval (c :: s)) (length (c :: s))); [split; lia|]. apply IH; [exact HF'|discriminate].
Qed.
Lemma of_uint_acc_eq u : forall acc, N.pos (Pos.of_uint_acc u acc) = (N.pos acc * 10 ^ N.of_nat (nb_digits u) + N.of_uint u)%N.
Proof.
  induction u; intros acc; cbn [nb_digits Pos.of_uint_acc].
  1: change (10 ^ N.of_nat 0)%N with 1%N; cbn; lia.
  all: rewrite IHu, Nat2N.inj_succ, N.pow_succ_r'; change (N.of_uint ?x) with (Pos.of_uint x); cbn [Pos.of_uint]; rewrite ?IHu;
    change (Pos.of_uint u) with (N.of_uint u); try lia.
Qed.
Lemma digits_dval s : Forall is_digit s -> s <> [] -> digits s = Some (dval s).
Proof.
  intros HF HN. assert (exists u, NilEmpty.uint_of_string (string_of_list_ascii s) = Some u /\ nb_digits u = length s /\ Z.of_N (N.of_uint u) = dval s) as (u & E & _ & V).
  { clear HN. induction HF as [|b s Hb HF (u & E & L & V)]; [exists Nil; auto|]. cbn [string_of_list_ascii NilEmpty.uint_of_string]. rewrite E.
    assert (exists v, (0 <= v <= 9)%Z /\ b = chr (48 + v)) as (v & Hv & ->).
    { exists (code b - 48)%Z. unfold is_digit in Hb. split; [lia|]. apply code_inj. rewrite code_chr; lia. }
    cbn [dval length]. rewrite code_chr by lia. rewrite <- L, <- V. replace (48 + v - 48)%Z with v by ring. clear -Hv.
    assert (v = 0 \/ v = 1 \/ v = 2 \/ v = 3 \/ v = 4 \/ v = 5 \/ v = 6 \/ v = 7 \/ v = 8 \/ v = 9)%Z as D by lia.
    assert (forall p, Z.of_N (N.pos (Pos.of_uint_acc u p)) = (Z.pos p * 10 ^ Z.of_nat (nb_digits u) + Z.of_N (N.of_uint u))%Z) as K.
    { intros p. rewrite of_uint_acc_eq, N2Z.inj_add, N2Z.inj_mul, N2Z.inj_pow, nat_N_Z. reflexivity. }
    destruct D as [->|[->|[->|[->|[->|[->|[->|[->|[->| ->]]]]]]]]].
    1: exists (D0 u); split; [reflexivity|]; split; [reflexivity|]; cbn; reflexivity.
    - exists (D1 u); split; [reflexivity|]; split; [reflexivity|]; exact (K 1%positive).
    - exists (D2 u); split; [reflexivity|]; split; [reflexivity|]; exact (K 2%positive).
    - exists (D3 u); split; [reflexivity|]; split; [reflexivity|]; exact (K 3%positive).
    - exists (D4 u); split; [reflexivity|]; split; [reflexivity|]; exact (K 4%positive).
    - exists (D5 u); split; [reflexivity|]; split; [reflexivity|]; exact (K 5%positive).
    - exists (D6 u); split; [reflexivity|]; split; [reflexivity|]; exact (K 6%positive).
    - exists (D7 u); split; [reflexivity|]; split; [reflexivity|]; exact (K 7%positive).
    - exists (D8 u); split; [reflexivity|]; split; [reflexivity|]; exact (K 8%positive).
    - exists (D9 u); split; [reflexivity|]; split; [reflexivity|]; exact (K 9%positive). }
  unfold digits. rewrite E, V. destruct s; [contradiction|reflexivity].
Qed.

(** ** Zeros at the end *)
Lemma drop_rev_digits s : Forall is_digit s -> forall t, exists z r, s = z ++ r /\ Forall (fun b => code b = 48%Z) z /\
  (drop_zeros_rev (s ++ chr 46 :: t) = match r with [] => t | _ => r ++ chr 46 :: t end).
Proof.
  induction 1 as [|b s Hb HF IH]; intros t.
  - exists [], []. split; [reflexivity|]. split; [constructor|]. reflexivity.
  - cbn [app drop_zeros_rev]. destruct (Z.eqb_spec (code b) 48) as [E|E].
    + destruct (IH t) as (z & r & -> & Hz & K). exists (b :: z), r. split; [reflexivity|]. split; [constructor; assumption|exact K].
    + exists [], (b :: s). split; [reflexivity|]. split; [constructor|]. unfold is_digit in Hb. destruct (Z.eqb_spec (code b) 46); [lia|reflexivity].
Qed.
Lemma drop_zeros_spec i f : Forall is_digit f -> exists g z, f = g ++ z /\ Forall (fun b => code b = 48%Z) z /\
  drop_zeros (i ++ chr 46 :: f) = match g with [] => i | _ => i ++ chr 46 :: g end.
Proof.
  intros HF. unfold drop_zeros. rewrite rev_app_distr. cbn [rev]. rewrite <- app_assoc. cbn [app].
  destruct (drop_rev_digits (rev f) (Forall_rev HF) (rev i)) as (z & r & E & Hz & K).
  exists (rev r), (rev z). split; [rewrite <- rev_app_distr, <- E, rev_involutive; reflexivity|]. split; [apply Forall_rev; exact Hz|].
  rewrite K. destruct r as [|b r]; cbn [rev]; [apply rev_involutive|]. destruct (rev r ++ [b]) eqn:ER; [destruct (rev r); discriminate|]. rewrite <- ER.
  change (b :: r ++ chr 46 :: rev i) with ((b :: r) ++ chr 46 :: rev i). rewrite rev_app_distr. cbn [rev]. rewrite rev_involutive, <- app_assoc. reflexivity.
Qed.
Lemma dval_zeros z : Forall (fun b => code b = 48%Z) z -> dval z = 0%Z.
Proof. induction 1 as [|b z Hb _ IH]; [reflexivity|]. cbn [dval]. rewrite Hb, IH. lia. Qed.
Lemma dot_char : chr 46 = "."%char. Proof. reflexivity. Qed.
Lemma pow10_ZQ k : (0 < ZQ (10 ^ Z.of_nat k))%Qc. Proof. apply unit_pos. Qed.
(** The text of an integer with a decimal point, without zeros at the end. *)
Lemma drop_fixed d n : (0 < d)%nat -> (0 <= n)%Z -> decimal (drop_zeros (fixed d n)) (ZQ n / ZQ (10 ^ Z.of_nat d)).
Proof.
  intros Hd Hn. destruct (fixed_eq d n Hd) as (i & f & E & Di & Df & Ni & Nf & K). destruct (K Hn) as (L & Vi & Vf). rewrite E.
  rewrite digits_dval in Vi by assumption. rewrite digits_dval in Vf by assumption. injection Vi as Vi. injection Vf as Vf.
  destruct (drop_zeros_spec i f Df) as (g & z & -> & Hz & ->). rewrite dval_app, (dval_zeros z Hz) in Vf. rewrite app_length in L.
  pose proof (pow10_pos d) as HP. set (P := (10 ^ Z.of_nat d)%Z) in *.
  assert (ZQ n / ZQ P = ZQ (dval i) + ZQ (n mod P) / ZQ P)%Qc as EN.
  { rewrite Vi. rewrite (Z.div_mod n P) at 1 by lia. rewrite ZQ_add, ZQ_mul. field. apply (qpos_nz _ (unit_pos d)). }
  rewrite EN. pose proof (dval_numeral i Di Ni) as NI. destruct g as [|g0 g].
  - cbn [app dval] in Vf. rewrite <- Vf. replace (ZQ (0 * 10 ^ Z.of_nat (length z) + 0)) with 0%Qc by (apply Qc_is_canon; reflexivity).
    replace (ZQ (dval i) + 0 / ZQ P)%Qc with (ZQ (dval i)) by (unfold Qcdiv; ring). apply dec_whole with (length i). exact NI.
  - assert (Forall is_digit (g0 :: g)) as DG by (apply Forall_app in Df; apply Df).
    rewrite <- Vf. replace (ZQ (dval (g0 :: g) * 10 ^ Z.of_nat (length z) + 0) / ZQ P)%Qc with (ZQ (dval (g0 :: g)) / ZQ (10 ^ Z.of_nat (length (g0 :: g))))%Qc.
    + apply (dec_both i (g0 :: g) (dval i) (dval (g0 :: g)) (length i) (length (g0 :: g))); [exact NI|]. apply dval_numeral; [exact DG|discriminate].
    + rewrite Z.add_0_r, ZQ_mul. unfold P. rewrite <- L, Nat2Z.inj_add, Z.pow_add_r, ZQ_mul by lia. field. split; apply qpos_nz, unit_pos.
Qed.

(** The number with the digits [m] and the exponent [e]. *)
Definition scaled (m e : Z) : Qc := scale10 (ZQ m) (e - 5).
Lemma scaled_R m e : QR (scaled m e) = (IZR m * powerRZ 10 (e - 5))%R.
Proof.
  unfold scaled, scale10. destruct (Z.leb_spec 0 (e - 5)) as [L|L].
  - rewrite QR_mul, !QR_ZQ, pow10_nat by exact L. reflexivity.
  - rewrite QR_div, !QR_ZQ. 2:{ intros C. apply (qpos_nz (ZQ (10 ^ (- (e - 5))))); [rewrite <- ZQ_0; apply ZQ_lt, Z.pow_pos_nonneg; lia|exact C]. }
    unfold Rdiv. f_equal. rewrite <- pow10_nat by lia. rewrite powerRZ_neg', Rinv_inv. reflexivity.
Qed.

Lemma digits_number m e : (0 <= m)%Z -> number (digits_g m e) (Fin (scaled m e)).
Proof.
  intros Hm. unfold digits_g. destruct ((-4 <=? e) && (e <? 6))%Z eqn:ER.
  - apply andb_true_iff in ER. destruct ER as [E1 E2]. apply Z.leb_le in E1. apply Z.ltb_lt in E2. apply nr_decimal. destruct (Z.eqb_spec e 5) as [-> |E5].
    + replace (scaled m 5) with (ZQ m) by (unfold scaled, scale10; cbn [Z.sub Z.leb]; change (10 ^ (5 - 5))%Z with 1%Z; rewrite ZQ_1; cbn; ring).
      unfold fmt_int. destruct (Z.ltb_spec m 0); [lia|]. pose proof (dval_numeral _ (dec_digits (Z.to_N m)) (dec_nonempty (Z.to_N m))) as N.
      pose proof (digits_dec (Z.to_N m)) as D. rewrite (digits_dval _ (dec_digits _) (dec_nonempty _)) in D. injection D as D. rewrite D, Z2N.id in N by exact Hm. eapply dec_whole. exact N.
    + assert (scaled m e = ZQ m / ZQ (10 ^ Z.of_nat (Z.to_nat (5 - e))))%Qc as ->.
      { unfold scaled, scale10. destruct (Z.leb_spec 0 (e - 5)); [lia|]. rewrite Z2Nat.id by lia. do 4 f_equal. lia. }
      apply drop_fixed; [lia|exact Hm].
  - assert (scaled m e = (ZQ m / ZQ (10 ^ Z.of_nat 5)) * ZQ (if (0 <=? e)%Z then 10 ^ e else 1) / ZQ (if (0 <=? e)%Z then 1 else 10 ^ (- e)))%Qc as ->.
    { apply QR_inj. rewrite scaled_R. rewrite QR_div, QR_mul, QR_div, !QR_ZQ.
      2:{ apply qpos_nz, unit_pos. }
      2:{ destruct (Z.leb_spec 0 e); [intros C; discriminate C|]. apply qpos_nz. rewrite <- ZQ_0. apply ZQ_lt, Z.pow_pos_nonneg; lia. }
      replace (powerRZ 10 (e - 5)) with (powerRZ 10 e / 100000)%R.
      2:{ replace e with (e - 5 + 5)%Z at 1 by ring. rewrite pow10_add, (pow10_nat 5) by lia. change (IZR (10 ^ 5)) with 100000%R. field. }
      change (IZR (10 ^ Z.of_nat 5)) with 100000%R. destruct (Z.leb_spec 0 e) as [L|L].
      - rewrite pow10_nat by exact L. field.
      - replace e with (- - e)%Z at 1 by ring. rewrite powerRZ_neg', pow10_nat by lia. field. apply not_0_IZR. pose proof (Z.pow_pos_nonneg 10 (- e)). lia. }
    unfold exponent_text. set (t := dec (Z.to_N (Z.abs e))).
    assert (forall k, exists j, numeral (txt (zeros k ++ t)) (Z.abs e) j) as NT.
    { intros k. pose proof (digits_padded k (Z.to_N (Z.abs e))) as D. fold t in D.
      assert (Forall is_digit (txt (zeros k ++ t))) as F by (rewrite txt_app; apply Forall_app; split; [apply zeros_digits|apply dec_digits]).
      assert (txt (zeros k ++ t) <> []) as NE by (rewrite txt_app; intros C; apply app_eq_nil in C; apply (dec_nonempty (Z.to_N (Z.abs e))); apply C).
      rewrite (digits_dval _ F NE) in D. injection D as D. rewrite Z2N.id in D by lia. exists (length (txt (zeros k ++ t))). rewrite <- D. apply dval_numeral; assumption. }
    destruct (NT (2 - String.length t)%nat) as (j & NJ). rewrite !txt_app. rewrite txt_app in NJ.
    assert (exists c x, txt (if (e <? 0)%Z then "e-" else "e+") ++ txt (zeros (2 - String.length t)) ++ txt t = c :: x /\ c = "e"%char /\ with_sign (fun t n => exists k, numeral t n k) Z.opp x e) as (c & x & EX & EC & WS).
    { destruct (Z.ltb_spec e 0) as [L|L].
      - exists "e"%char, ("-"%char :: txt (zeros (2 - String.length t)) ++ txt t). split; [reflexivity|]. split; [reflexivity|]. right. right. eexists. exists (Z.abs e).
        split; [reflexivity|]. split; [exists j; exact NJ|lia].
      - exists "e"%char, ("+"%char :: txt (zeros (2 - String.length t)) ++ txt t). split; [reflexivity|]. split; [reflexivity|]. right. left. eexists.
        split; [reflexivity|]. exists j. rewrite Z.abs_eq in NJ by lia. exact NJ. }
    rewrite EX. apply nr_exponent with (e := e); [apply drop_fixed; lia|left; exact EC|exact WS|]. unfold ten_to. destruct (Z.leb_spec 0 e); [left|right]; auto.
Qed.
(** The number which ['%g'] shows. *)
Definition round_g (x : R) : Qc :=
  if Req_EM_T x 0 then 0%Qc else let (m, e) := significant (Rabs x) in if Rlt_dec x 0 then (- scaled m e)%Qc else scaled m e.
Lemma has_digits_opp d z : has_digits d z -> has_digits d (- z)%R.
Proof. intros (n & k & Hn & ->). exists (- n)%Z, k. rewrite Z.abs_opp, opp_IZR. split; [exact Hn|ring]. Qed.
Lemma round_g_nearest x : nearest_significant 6 x (round_g x).
Proof.
  unfold round_g. destruct (Req_EM_T x 0) as [-> |N].
  - split; [exists 0%Z, 0%Z; split; [reflexivity|]|].
    + first [rewrite QR_ZQ | rewrite QR_0]; lra.
    + intros z _. first [rewrite QR_ZQ | rewrite QR_0]; rewrite Rminus_0_r, Rabs_R0; apply Rabs_pos.
  - pose proof (significant_spec (Rabs x) (Rabs_pos_lt x N)) as S. destruct (significant (Rabs x)) as [m e]. destruct S as [Hm S].
    assert (has_digits 6 (QR (scaled m e))) as H6. { exists m, (e - 5)%Z. split; [change (10 ^ Z.of_nat 6)%Z with 1000000%Z; lia|apply scaled_R]. }
    destruct (Rlt_dec x 0) as [L|L].
    + rewrite (Rabs_left x L) in S. split; [rewrite QR_opp; apply has_digits_opp; exact H6|]. intros z Hz. specialize (S (- z)%R (has_digits_opp _ _ Hz)).
      rewrite QR_opp, scaled_R. replace (- (IZR m * powerRZ 10 (e - 5)) - x)%R with (- (IZR m * powerRZ 10 (e - 5) - - x))%R by ring. replace (z - x)%R with (- (- z - - x))%R by ring.
      rewrite !Rabs_Ropp. exact S.
    + rewrite (Rabs_right x) in S by lra. split; [exact H6|]. intros z Hz. rewrite scaled_R. exact (S z Hz).
Qed.
Lemma fmt_g_core x : with_sign number opposite (fmt_g x) (Fin (round_g x)).
Proof.
  unfold fmt_g, round_g. destruct (Req_EM_T x 0) as [-> |N].
  - left. apply nr_decimal. rewrite <- ZQ_0. apply dec_whole with 1%nat. constructor. split; [lia|reflexivity].
  - pose proof (significant_spec (Rabs x) (Rabs_pos_lt x N)) as S. destruct (significant (Rabs x)) as [m e]. destruct S as [Hm _].
    pose proof (digits_number m e ltac:(lia)) as D. destruct (Rlt_dec x 0).
    + right. right. exists (digits_g m e), (Fin (scaled m e)). split; [reflexivity|]. split; [exact D|reflexivity].
    + left. exact D.
Qed.
