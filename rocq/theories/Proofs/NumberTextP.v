(** Numbers in texts have no white space in them. *)
From Coq Require Import String Ascii Reals.
From Verif.Base Require Import QcX Np Bytes.
From Verif.Model Require Import Text Simple Formats RealText Table.
From Verif.Spec Require Import CliSpec RealTextSpec TableSpec.
From Verif.Proofs Require Import TextP PyTextP TableP RealTextP RealTextP2.
Local Open Scope list_scope.

Definition dark (c : ascii) : Prop := (33 <= code c < 127)%Z.
Lemma numeral_dark s n k : numeral s n k -> Forall dark s /\ s <> [].
Proof.
  intros H. destruct (numeral_chars s n k H) as (F & c & t & -> & _). split; [|discriminate]. revert F. apply Forall_impl. intros a [Ha | Ha]; unfold dark; lia.
Qed.
Lemma dark_lit c : (33 <=? code c)%Z = true -> (code c <? 127)%Z = true -> dark c.
Proof. intros H1 H2. apply Z.leb_le in H1. apply Z.ltb_lt in H2. split; assumption. Qed.
Lemma decimal_dark s v : decimal s v -> Forall dark s /\ s <> [].
Proof.
  intros [i n k H | i n k H | f n k H | i f n m j k H1 H2].
  - exact (numeral_dark _ _ _ H).
  - destruct (numeral_dark _ _ _ H) as [F _]. split; [apply Forall_app; split; [exact F|]|intros C; apply app_eq_nil in C; destruct C; discriminate].
    constructor; [apply dark_lit; reflexivity|constructor].
  - destruct (numeral_dark _ _ _ H) as [F _]. split; [constructor; [apply dark_lit; reflexivity|exact F]|discriminate].
  - destruct (numeral_dark _ _ _ H1) as [F1 N1], (numeral_dark _ _ _ H2) as [F2 _]. split; [apply Forall_app; split; [exact F1|]|intros C; apply app_eq_nil in C; apply N1, C].
    constructor; [apply dark_lit; reflexivity|exact F2].
Qed.
Lemma signed_dark {A} (R : list ascii -> A -> Prop) opp s x : (forall t y, R t y -> Forall dark t /\ t <> []) -> with_sign R opp s x -> Forall dark s /\ s <> [].
Proof.
  intros HR [H | [(t & -> & H) | (t & y & -> & H & _)]]; [exact (HR _ _ H)| |]; destruct (HR _ _ H) as [F _]; (split; [constructor; [apply dark_lit; reflexivity|exact F]|discriminate]).
Qed.
Lemma word_dark w s : Forall dark (txt w) -> (forall c, In c (txt w) -> (97 <= code c <= 122)%Z) -> txt w <> [] -> any_case w s -> Forall dark s /\ s <> [].
Proof.
  unfold any_case. intros F L N H. split; [|intros ->; inversion H; congruence]. clear N. revert F L. induction H as [|l c ls cs [-> | [_ Hc]] H IH]; intros F L; constructor.
  - inversion F; assumption.
  - apply IH; [inversion F; assumption|]. intros a Ha. apply L. right. exact Ha.
  - specialize (L l (or_introl eq_refl)). unfold dark. lia.
  - apply IH; [inversion F; assumption|]. intros a Ha. apply L. right. exact Ha.
Qed.
Lemma number_dark s x : number s x -> Forall dark s /\ s <> [].
Proof.
  assert (forall w, forallb (fun c => (97 <=? code c) && (code c <=? 122))%Z (txt w) = true -> Forall dark (txt w) /\ forall c, In c (txt w) -> (97 <= code c <= 122)%Z) as W.
  { intros w H. rewrite forallb_forall in H. assert (forall c, In c (txt w) -> (97 <= code c <= 122)%Z) as K by (intros c Hc; specialize (H c Hc); apply andb_true_iff in H; destruct H as [H1 H2]; apply Z.leb_le in H1; apply Z.leb_le in H2; lia).
    split; [|exact K]. apply Forall_forall. intros c Hc. specialize (K c Hc). unfold dark. lia. }
  intros [m v H | m v c t e p q H Hc Hs _ | t H | t H | t H].
  - exact (decimal_dark _ _ H).
  - destruct (decimal_dark _ _ H) as [F N]. destruct (signed_dark _ _ _ _ (fun t n K => match K with ex_intro _ k K => numeral_dark t n k K end) Hs) as [G _].
    split; [apply Forall_app; split; [exact F|constructor; [|exact G]]|intros C; apply app_eq_nil in C; apply N, C]. destruct Hc as [-> | ->]; apply dark_lit; reflexivity.
  - destruct (W "inf"%string eq_refl) as [W1 W2]. exact (word_dark "inf" _ W1 W2 ltac:(discriminate) H).
  - destruct (W "infinity"%string eq_refl) as [W1 W2]. exact (word_dark "infinity" _ W1 W2 ltac:(discriminate) H).
  - destruct (W "nan"%string eq_refl) as [W1 W2]. exact (word_dark "nan" _ W1 W2 ltac:(discriminate) H).
Qed.
Lemma dark_plain s : Forall dark s -> Forall plain s.
Proof.
  apply Forall_impl. intros c [H _]. unfold plain, is_space. apply orb_false_iff. split; apply andb_false_iff; right; apply Z.leb_gt; lia.
Qed.
(** What ['%g'] writes is a word, and is the text of the number nearest to [x] among those of six digits. *)
Lemma fmt_g_dark x : Forall dark (fmt_g x) /\ fmt_g x <> [].
Proof. exact (signed_dark _ _ _ _ number_dark (fmt_g_core x)). Qed.
Lemma fmt_g_opt_dark x : Forall dark (fmt_g_opt x) /\ fmt_g_opt x <> [].
Proof. destruct x as [x|]; [apply fmt_g_dark|]. split; [repeat constructor; apply dark_lit; reflexivity|discriminate]. Qed.
Lemma core_text core x : with_sign number opposite core x -> float_text (string_of core) x.
Proof.
  intros H. exists core. split; [|exact H]. exists [], []. assert (txt (string_of core) = core) as -> by (clear; unfold string_of, txt; apply list_ascii_of_string_of_list_ascii).
  rewrite app_nil_r. split; [reflexivity|split; constructor].
Qed.
Lemma fmt_g_text x : exists y, float_text (string_of (fmt_g x)) (Fin y) /\ nearest_significant 6 x y.
Proof. exists (round_g x). split; [apply core_text, fmt_g_core|apply round_g_nearest]. Qed.
Lemma fmt_g_nan : float_text (string_of (fmt_g_opt None)) NaN.
Proof. apply core_text. left. apply nr_nan. repeat (constructor; [left; reflexivity|]). constructor. Qed.
