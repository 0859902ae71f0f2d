(** Numbers in texts: the model reads exactly the texts of the specification. *)
From Coq Require Import String Ascii.
From Verif.Base Require Import QcX Res Np Bytes.
From Verif.Model Require Import Text PyText.
From Verif.Spec Require Import CliSpec.
Local Open Scope list_scope.

Lemma code_inj a b : code a = code b -> a = b.
Proof. unfold code. intros H. apply Nat2Z.inj in H. rewrite <- (ascii_nat_embedding a), <- (ascii_nat_embedding b), H. reflexivity. Qed.

(** ** Runs of digits *)
Lemma digit_of_iff c v : digit_of c = Some v <-> is_digit c v.
Proof.
  unfold digit_of, is_digit. destruct (Z.leb_spec 48 (code c)), (Z.leb_spec (code c) 57); cbn [andb]; split; intros E; try discriminate; try lia.
  - injection E as <-. lia.
  - f_equal. lia.
Qed.
Lemma run_numeral s n k : numeral s n k -> forall acc j after, run_from acc j after s = Some ((acc * 10 ^ Z.of_nat k + n)%Z, (j + k)%nat).
Proof.
  induction 1 as [c v Hc | c v s n k Hc _ IH | c v s n k Hc _ IH]; intros acc j after; cbn [run_from];
    rewrite (proj2 (digit_of_iff _ _) Hc).
  - replace (10 ^ Z.of_nat 1)%Z with 10%Z by reflexivity. f_equal. f_equal; lia.
  - rewrite IH, Nat2Z.inj_succ, Z.pow_succ_r by lia. f_equal. f_equal; [ring|lia].
  - replace (digit_of "_"%char) with (@None Z) by reflexivity. replace (code "_"%char =? 95)%Z with true by reflexivity. cbn [andb].
    rewrite IH, Nat2Z.inj_succ, Z.pow_succ_r by lia. f_equal. f_equal; [ring|lia].
Qed.
Lemma run_from_inv s : forall acc j after m l, run_from acc j after s = Some (m, l) ->
  (exists n k, numeral s n k /\ m = (acc * 10 ^ Z.of_nat k + n)%Z /\ l = (j + k)%nat) \/
  (after = true /\ (s = [] /\ m = acc /\ l = j \/
     exists t n k, s = "_"%char :: t /\ numeral t n k /\ m = (acc * 10 ^ Z.of_nat k + n)%Z /\ l = (j + k)%nat)).
Proof.
  induction s as [|c s IH]; intros acc j after m l E; cbn [run_from] in E.
  - destruct after; [|discriminate]. injection E as <- <-. right. split; [reflexivity|]. left. auto.
  - destruct (digit_of c) as [v|] eqn:D.
    + apply digit_of_iff in D. left. apply IH in E. destruct E as [(n & k & Hn & -> & ->) | (_ & [(-> & -> & ->) | (t & n & k & -> & Hn & -> & ->)])].
      * exists (v * 10 ^ Z.of_nat k + n)%Z, (S k). split; [constructor; assumption|]. rewrite Nat2Z.inj_succ, Z.pow_succ_r by lia. split; [ring|lia].
      * exists v, 1%nat. split; [constructor; assumption|]. replace (10 ^ Z.of_nat 1)%Z with 10%Z by reflexivity. split; lia.
      * exists (v * 10 ^ Z.of_nat k + n)%Z, (S k). split; [constructor; assumption|]. rewrite Nat2Z.inj_succ, Z.pow_succ_r by lia. split; [ring|lia].
    + destruct (Z.eqb_spec (code c) 95) as [Ec|]; [|discriminate]. destruct after; [|discriminate]. cbn [andb] in E. right. split; [reflexivity|]. right.
      apply IH in E. destruct E as [(n & k & Hn & -> & ->) | (E & _)]; [|discriminate].
      exists s, n, k. repeat split; auto. f_equal. apply code_inj. exact Ec.
Qed.
Lemma run_iff s n k : PyText.run s = Some (n, k) <-> numeral s n k.
Proof.
  unfold PyText.run. split; intros H.
  - apply run_from_inv in H. destruct H as [(n' & k' & Hn & -> & ->) | (E & _)]; [|discriminate].
    replace (0 * 10 ^ Z.of_nat k' + n')%Z with n' by ring. exact Hn.
  - rewrite (run_numeral _ _ _ H). rewrite Nat.add_0_l. f_equal.
Qed.
Lemma run_value_iff s n : option_map fst (PyText.run s) = Some n <-> exists k, numeral s n k.
Proof.
  split.
  - destruct (PyText.run s) as [[m k]|] eqn:E; cbn; [|discriminate]. intros H. injection H as <-. exists k. apply run_iff. exact E.
  - intros (k & H). apply run_iff in H. rewrite H. reflexivity.
Qed.

(** The characters of a numeral. *)
Definition plain_num (c : ascii) : Prop := (48 <= code c <= 57)%Z \/ code c = 95%Z.
Lemma numeral_chars s n k : numeral s n k -> Forall plain_num s /\ exists c t, s = c :: t /\ (48 <= code c <= 57)%Z.
Proof.
  induction 1 as [c v [Hv Hc] | c v s n k [Hv Hc] _ [IH _] | c v s n k [Hv Hc] _ [IH _]].
  - split; [repeat constructor; unfold plain_num; lia|]. exists c, []. split; [reflexivity|lia].
  - split; [constructor; [unfold plain_num; lia|exact IH]|]. exists c, s. split; [reflexivity|lia].
  - split; [constructor; [unfold plain_num; lia|constructor; [right; reflexivity|exact IH]]|]. exists c, ("_"%char :: s). split; [reflexivity|lia].
Qed.

(** ** White space *)
Lemma blank_iff c : blank c = true <-> white c.
Proof. unfold blank, white. destruct (Z.leb_spec 9 (code c)), (Z.leb_spec (code c) 13), (Z.eqb_spec (code c) 32); cbn; split; intros; try discriminate; try lia; reflexivity. Qed.
Definition solid (c : ascii) : Prop := blank c = false.
Lemma lstrip_app pre s : Forall white pre -> lstrip (pre ++ s) = lstrip s.
Proof. induction 1 as [|c pre Hc _ IH]; [reflexivity|]. cbn [app lstrip]. rewrite (proj2 (blank_iff c) Hc). exact IH. Qed.
Lemma lstrip_solid s : match s with [] => True | c :: _ => solid c end -> lstrip s = s.
Proof. destruct s as [|c s]; [reflexivity|]. intros H. cbn. rewrite H. reflexivity. Qed.
Lemma lstrip_inv s : exists pre, s = pre ++ lstrip s /\ Forall white pre /\ match lstrip s with [] => True | c :: _ => solid c end.
Proof.
  induction s as [|c s (pre & E & Hw & Hs)]; [exists []; repeat split; constructor|]. cbn [lstrip]. destruct (blank c) eqn:B.
  - exists (c :: pre). split; [cbn; f_equal; exact E|]. split; [constructor; [apply blank_iff; exact B|exact Hw]|exact Hs].
  - exists []. repeat split; [constructor|exact B].
Qed.
Lemma Forall_rev_white l : Forall white l -> Forall white (rev l).
Proof. intros H. apply Forall_forall. intros c Hc. apply in_rev in Hc. rewrite Forall_forall in H. auto. Qed.
(** Texts whose first and last characters are not white space. *)
Definition ends_solid (s : list ascii) : Prop := match s with [] => True | c :: _ => solid c end /\ match rev s with [] => True | c :: _ => solid c end.
Lemma strip_spec s core : ends_solid core -> surrounded s core -> strip s = core.
Proof.
  intros [Ha Hb] (pre & post & -> & Hpre & Hpost). unfold strip. rewrite lstrip_app by exact Hpre.
  destruct core as [|c core].
  - cbn [app]. assert (lstrip post = []) as ->; [|reflexivity]. replace post with (post ++ []) by apply app_nil_r. rewrite lstrip_app by exact Hpost. reflexivity.
  - rewrite (lstrip_solid ((c :: core) ++ post)) by exact Ha. rewrite rev_app_distr, lstrip_app by (apply Forall_rev_white; exact Hpost).
    rewrite (lstrip_solid (rev (c :: core))) by exact Hb. apply rev_involutive.
Qed.
Lemma strip_inv s : surrounded s (strip s).
Proof.
  unfold strip. destruct (lstrip_inv s) as (pre & E & Hw & _). destruct (lstrip_inv (rev (lstrip s))) as (post & E2 & Hw2 & _).
  exists pre, (rev post). split; [|split; [exact Hw|apply Forall_rev_white; exact Hw2]].
  rewrite E at 1. f_equal. rewrite <- rev_app_distr. rewrite <- E2. symmetry. apply rev_involutive.
Qed.

(** ** Signs *)
Lemma signed_iff {A} (f : bytes -> option A) (R : list ascii -> A -> Prop) neg s x :
  (forall t y, f t = Some y <-> R t y) -> (forall t y c u, R t y -> t = c :: u -> code c <> 43%Z /\ code c <> 45%Z) ->
  (signed f neg s = Some x <-> with_sign R neg s x).
Proof.
  intros Hf Hc. unfold with_sign. split.
  - destruct s as [|b s]; cbn [signed]; [intros E; left; apply Hf; exact E|].
    destruct (Z.eqb_spec (code b) 45) as [Eb|N1].
    + destruct (f s) as [y|] eqn:E; cbn; [|discriminate]. intros H. injection H as <-. right. right. exists s, y. split; [|split; [apply Hf; exact E|reflexivity]].
      f_equal. apply code_inj. exact Eb.
    + destruct (Z.eqb_spec (code b) 43) as [Eb|N2]; intros E.
      * right. left. exists s. split; [|apply Hf; exact E]. f_equal. apply code_inj. exact Eb.
      * left. apply Hf. exact E.
  - intros [H | [(t & -> & H) | (t & y & -> & H & ->)]].
    + destruct s as [|b s]; cbn [signed]; [apply Hf; exact H|]. destruct (Hc _ _ _ _ H eq_refl) as [N1 N2].
      destruct (Z.eqb_spec (code b) 45); [congruence|]. destruct (Z.eqb_spec (code b) 43); [congruence|]. apply Hf. exact H.
    + apply Hf in H. cbn [signed]. exact H.
    + apply Hf in H. cbn [signed]. change (code "-"%char =? 45)%Z with true. cbv iota. rewrite H. reflexivity.
Qed.
Lemma signed_solid {A} (R : list ascii -> A -> Prop) neg s x :
  (forall t y, R t y -> t <> [] /\ Forall solid t) -> with_sign R neg s x -> ends_solid s.
Proof.
  intros H Hs.
  assert (forall t : list ascii, Forall solid t -> ends_solid t) as key.
  { intros t Ht. assert (Forall solid (rev t)) as Hr by (apply Forall_forall; intros c Hc; apply in_rev in Hc; rewrite Forall_forall in Ht; auto).
    split; [destruct Ht; auto|destruct Hr; auto]. }
  apply key. destruct Hs as [H1 | [(t & -> & H1) | (t & y & -> & H1 & _)]]; apply H in H1.
  - apply H1.
  - constructor; [reflexivity|apply H1].
  - constructor; [reflexivity|apply H1].
Qed.
Lemma plain_solid c : plain_num c -> solid c.
Proof. intros H. unfold solid. destruct (blank c) eqn:E; [|reflexivity]. apply blank_iff in E. unfold plain_num, white in *. lia. Qed.
Lemma numeral_solid s n k : numeral s n k -> s <> [] /\ Forall solid s.
Proof.
  intros H. destruct (numeral_chars _ _ _ H) as [Hc (c & t & -> & _)]. split; [discriminate|]. eapply Forall_impl; [|exact Hc]. apply plain_solid.
Qed.
Definition whole (t : list ascii) (n : Z) : Prop := exists k, numeral t n k.
Lemma whole_sign t y c u : whole t y -> t = c :: u -> code c <> 43%Z /\ code c <> 45%Z.
Proof.
  intros (k & H) ->. destruct (numeral_chars _ _ _ H) as [_ (c' & t' & E & Hc)]. injection E as <- <-. lia.
Qed.
Lemma signed_run_iff s z : signed (fun s => option_map fst (PyText.run s)) Z.opp s = Some z <-> with_sign whole Z.opp s z.
Proof. apply signed_iff; [intros; apply run_value_iff|exact whole_sign]. Qed.

Theorem py_int_iff s z : py_int (txt s) = Some z <-> int_text s z.
Proof.
  unfold py_int, int_text. split.
  - intros H. apply signed_run_iff in H. exists (strip (txt s)). split; [apply strip_inv|exact H].
  - intros (core & Hs & H). rewrite (strip_spec _ core); [apply signed_run_iff; exact H| |exact Hs].
    apply (signed_solid whole Z.opp core z); [|exact H]. intros t y (k & Hk). apply (numeral_solid _ _ _ Hk).
Qed.

(** ** Decimals *)
Definition no_dot (c : ascii) : Prop := code c <> 46%Z.
Lemma split_dot_none s : Forall no_dot s -> split_dot s = (s, None).
Proof. induction 1 as [|c s Hc _ IH]; [reflexivity|]. cbn. unfold no_dot in Hc. destruct (Z.eqb_spec (code c) 46); [congruence|]. rewrite IH. reflexivity. Qed.
Lemma split_dot_some a b : Forall no_dot a -> split_dot (a ++ "."%char :: b) = (a, Some b).
Proof. induction 1 as [|c s Hc _ IH]; [reflexivity|]. cbn. unfold no_dot in Hc. destruct (Z.eqb_spec (code c) 46); [congruence|]. rewrite IH. reflexivity. Qed.
Lemma split_dot_inv s : match split_dot s with
  | (a, None) => s = a
  | (a, Some b) => s = a ++ "."%char :: b
  end.
Proof.
  induction s as [|c s IH]; cbn; [reflexivity|]. destruct (Z.eqb_spec (code c) 46) as [E|].
  - cbn. f_equal. apply code_inj. exact E.
  - destruct (split_dot s) as [a [b|]]; cbn; f_equal; exact IH.
Qed.
Lemma numeral_no_dot s n k : numeral s n k -> Forall no_dot s.
Proof. intros H. destruct (numeral_chars _ _ _ H) as [Hc _]. eapply Forall_impl; [|exact Hc]. intros c. unfold plain_num, no_dot. lia. Qed.
Lemma numeral_cons s n k : numeral s n k -> exists c t, s = c :: t.
Proof. intros H. destruct (numeral_chars _ _ _ H) as [_ (c & t & -> & _)]. eauto. Qed.
Lemma mantissa_iff s v : mantissa s = Some v <-> decimal s v.
Proof.
  split.
  - unfold mantissa. pose proof (split_dot_inv s) as E. destruct (split_dot s) as [i [f|]]; subst s.
    + destruct i as [|i0 i], f as [|f0 f]; intros H.
      * discriminate.
      * destruct (PyText.run (f0 :: f)) as [[n k]|] eqn:E; cbn [option_map fst snd] in H; [|discriminate]. apply run_iff in E.
        match type of H with Some ?x = Some ?y => assert (x = y) as <- by congruence end. cbn [app]. constructor. exact E.
      * destruct (PyText.run (i0 :: i)) as [[n k]|] eqn:E; cbn [option_map fst snd] in H; [|discriminate]. apply run_iff in E.
        match type of H with Some ?x = Some ?y => assert (x = y) as <- by congruence end. apply (dec_point _ _ _ E).
      * destruct (PyText.run (i0 :: i)) as [[n j]|] eqn:E; [|discriminate]. destruct (PyText.run (f0 :: f)) as [[m k]|] eqn:E2; [|discriminate].
        cbn [fst snd] in H. apply run_iff in E, E2. match type of H with Some ?x = Some ?y => assert (x = y) as <- by congruence end.
        apply (dec_both _ _ _ _ _ _ E E2).
    + intros H. destruct (PyText.run i) as [[n k]|] eqn:E; cbn [option_map fst] in H; [|discriminate]. apply run_iff in E.
      match type of H with Some ?x = Some ?y => assert (x = y) as <- by congruence end. apply (dec_whole _ _ _ E).
  - intros [i n k H | i n k H | f n k H | i f n m j k H H2]; unfold mantissa.
    + rewrite split_dot_none by (apply (numeral_no_dot _ _ _ H)). apply run_iff in H. rewrite H. reflexivity.
    + rewrite split_dot_some by (apply (numeral_no_dot _ _ _ H)). destruct (numeral_cons _ _ _ H) as (c & t & ->). apply run_iff in H. rewrite H. reflexivity.
    + change (split_dot ("."%char :: f)) with (@nil ascii, Some f). destruct (numeral_cons _ _ _ H) as (c & t & ->). cbv iota. apply run_iff in H. rewrite H. reflexivity.
    + rewrite split_dot_some by (apply (numeral_no_dot _ _ _ H)). destruct (numeral_cons _ _ _ H) as (c & t & ->). destruct (numeral_cons _ _ _ H2) as (c' & t' & ->).
      apply run_iff in H, H2. rewrite H, H2. reflexivity.
Qed.
(** The characters of a decimal: digits, underscores and points. *)
Definition dec_char (c : ascii) : Prop := plain_num c \/ code c = 46%Z.
Lemma decimal_chars s v : decimal s v -> s <> [] /\ Forall dec_char s.
Proof.
  assert (forall s n k, numeral s n k -> s <> [] /\ Forall dec_char s) as key.
  { intros t n k H. destruct (numeral_chars _ _ _ H) as [Hc (c & u & -> & _)]. split; [discriminate|]. eapply Forall_impl; [|exact Hc]. intros; left; assumption. }
  assert (dec_char "."%char) as Hd by (right; reflexivity).
  intros [i n k H | i n k H | f n k H | i f n m j k H H2].
  - apply (key _ _ _ H).
  - destruct (key _ _ _ H) as [N F]. split; [destruct i; discriminate|]. apply Forall_app. split; [exact F|constructor; [exact Hd|constructor]].
  - destruct (key _ _ _ H) as [N F]. split; [discriminate|]. constructor; assumption.
  - destruct (key _ _ _ H) as [N F], (key _ _ _ H2) as [N2 F2]. split; [destruct i; discriminate|]. apply Forall_app. split; [exact F|constructor; assumption].
Qed.
Lemma is_e_iff c : is_e c = true <-> c = "e"%char \/ c = "E"%char.
Proof.
  unfold is_e. rewrite orb_true_iff, !Z.eqb_eq. split; (intros [H | H]; [left|right]); try (apply code_inj; exact H); subst; reflexivity.
Qed.
Lemma split_e_none s : Forall dec_char s -> split_e s = (s, None).
Proof.
  induction 1 as [|c s Hc _ IH]; [reflexivity|]. cbn. unfold is_e. unfold dec_char, plain_num in Hc.
  destruct (Z.eqb_spec (code c) 101); [lia|]. destruct (Z.eqb_spec (code c) 69); [lia|]. cbn. rewrite IH. reflexivity.
Qed.
Lemma split_e_some s c x : Forall dec_char s -> is_e c = true -> split_e (s ++ c :: x) = (s, Some x).
Proof.
  intros H He. induction H as [|a s Ha _ IH]; [cbn; rewrite He; reflexivity|]. cbn. unfold is_e at 1. unfold dec_char, plain_num in Ha.
  destruct (Z.eqb_spec (code a) 101); [lia|]. destruct (Z.eqb_spec (code a) 69); [lia|]. cbn. rewrite IH. reflexivity.
Qed.
Lemma split_e_inv s : match split_e s with
  | (a, None) => s = a
  | (a, Some b) => exists c, s = a ++ c :: b /\ is_e c = true
  end.
Proof.
  induction s as [|c s IH]; cbn; [reflexivity|]. destruct (is_e c) eqn:E.
  - exists c. split; [reflexivity|exact E].
  - destruct (split_e s) as [a [b|]]; cbn; [|f_equal; exact IH]. destruct IH as (c' & -> & He). exists c'. split; [reflexivity|exact He].
Qed.

(** ** Letters *)
Lemma lower_iff w s : Forall (fun c => (97 <= code c <= 122)%Z) (txt w) -> (lower s = txt w <-> any_case w s).
Proof.
  unfold any_case. generalize (txt w) as l. intros l H. revert l H. induction s as [|c s IH]; intros l H.
  - cbn. split; intros E; [subst; constructor|inversion E; reflexivity].
  - cbn [lower map]. split.
    + intros E. destruct l as [|a l]; [discriminate|]. injection E as E1 E2. inversion H as [|? ? Ha Hl]; subst. constructor; [|apply IH; auto].
      unfold lower1. destruct (Z.leb_spec 65 (code c)), (Z.leb_spec (code c) 90); cbn [andb]; try (left; reflexivity).
      right. unfold lower1 in Ha. rewrite (proj2 (Z.leb_le 65 (code c))), (proj2 (Z.leb_le (code c) 90)) in Ha by lia. cbn [andb] in Ha.
      rewrite code_chr in * by lia. lia.
    + intros E. inversion E as [|a ? l' ? Ha Hl]; subst. inversion H; subst. f_equal; [|apply IH; auto].
      unfold lower1. destruct Ha as [-> | [Hr Hc]].
      * destruct (Z.leb_spec 65 (code a)), (Z.leb_spec (code a) 90); cbn [andb]; try reflexivity. lia.
      * rewrite (proj2 (Z.leb_le 65 (code c))), (proj2 (Z.leb_le (code c) 90)) by lia. cbn [andb]. apply code_inj. rewrite code_chr by lia. lia.
Qed.
Lemma bytes_eqb_iff a b : bytes_eqb a b = true <-> a = b.
Proof. unfold bytes_eqb. destruct (list_eq_dec ascii_dec a b); split; intros; congruence. Qed.
Lemma letters w : forallb (fun c => ((97 <=? code c) && (code c <=? 122))%Z) (txt w) = true -> Forall (fun c => (97 <= code c <= 122)%Z) (txt w).
Proof. intros H. apply Forall_forall. intros c Hc. rewrite forallb_forall in H. apply H in Hc. apply andb_true_iff in Hc. lia. Qed.
Lemma inf_iff s : bytes_eqb (lower s) (txt "inf") = true <-> any_case "inf" s.
Proof. rewrite bytes_eqb_iff. apply lower_iff, letters. reflexivity. Qed.
Lemma infinity_iff s : bytes_eqb (lower s) (txt "infinity") = true <-> any_case "infinity" s.
Proof. rewrite bytes_eqb_iff. apply lower_iff, letters. reflexivity. Qed.
Lemma nan_iff s : bytes_eqb (lower s) (txt "nan") = true <-> any_case "nan" s.
Proof. rewrite bytes_eqb_iff. apply lower_iff, letters. reflexivity. Qed.
Lemma none_iff s : bytes_eqb (lower s) (txt "none") = true <-> any_case "none" s.
Proof. rewrite bytes_eqb_iff. apply lower_iff, letters. reflexivity. Qed.

(** Words and decimals start differently. *)
Lemma lower_dec_char c : dec_char c -> lower1 c = c.
Proof. intros H. unfold lower1. unfold dec_char, plain_num in H. destruct (Z.leb_spec 65 (code c)), (Z.leb_spec (code c) 90); cbn [andb]; try reflexivity. lia. Qed.
Lemma dec_not_word s x w : s <> [] -> Forall dec_char s -> Forall (fun c => (97 <= code c <= 122)%Z) w -> bytes_eqb (lower (s ++ x)) w = false.
Proof.
  intros N F Hw. destruct (bytes_eqb (lower (s ++ x)) w) eqn:E; [|reflexivity]. apply bytes_eqb_iff in E. subst w. exfalso.
  destruct s as [|c s]; [congruence|]. inversion F as [|? ? Hc _]; subst. cbn [app lower map] in Hw. inversion Hw as [|? ? Hl _]; subst.
  rewrite lower_dec_char in Hl by exact Hc. unfold dec_char, plain_num in Hc. lia.
Qed.
Lemma unsigned_float_dec s x : s <> [] -> Forall dec_char s -> unsigned_float (s ++ x) =
  match split_e (s ++ x) with
  | (m, None) => option_map Fin (mantissa m)
  | (m, Some e) => match mantissa m, signed (fun s => option_map fst (PyText.run s)) Z.opp e with
                   | Some m, Some e => Some (Fin (scale10 m e))
                   | _, _ => None
                   end
  end.
Proof.
  intros N F. unfold unsigned_float. rewrite !dec_not_word by (try assumption; apply letters; reflexivity). reflexivity.
Qed.
Lemma scale10_eq v e p q : ten_to e p q -> scale10 v e = v * ZQ p / ZQ q.
Proof.
  unfold scale10. intros [(He & -> & ->) | (He & -> & ->)].
  - rewrite (proj2 (Z.leb_le 0 e) He). replace (ZQ 1) with 1 by (symmetry; apply ZQ_1). field. discriminate.
  - destruct (Z.leb_spec 0 e); [lia|]. replace (ZQ 1) with 1 by (symmetry; apply ZQ_1). f_equal. ring.
Qed.
Lemma unsigned_float_iff s x : unsigned_float s = Some x <-> number s x.
Proof.
  split.
  - unfold unsigned_float. destruct (bytes_eqb (lower s) (txt "inf")) eqn:E1; cbn [orb].
    { intros H. injection H as <-. apply nr_inf, inf_iff. exact E1. }
    destruct (bytes_eqb (lower s) (txt "infinity")) eqn:E2.
    { intros H. injection H as <-. apply nr_infinity, infinity_iff. exact E2. }
    destruct (bytes_eqb (lower s) (txt "nan")) eqn:E3.
    { intros H. injection H as <-. apply nr_nan, nan_iff. exact E3. }
    pose proof (split_e_inv s) as E. destruct (split_e s) as [m [e|]].
    + destruct E as (c & -> & He). destruct (mantissa m) as [v|] eqn:Em; [|discriminate].
      match goal with |- context [signed ?f ?n ?t] => destruct (signed f n t) as [z|] eqn:Ez; [|discriminate] end.
      intros H. match type of H with Some ?a = Some ?b => assert (a = b) as <- by congruence end. clear H.
      assert (exists p q, ten_to z p q) as (p & q & Hpq).
      { unfold ten_to. destruct (Z.leb_spec 0 z); [exists (10 ^ z)%Z, 1%Z|exists 1%Z, (10 ^ (- z))%Z]; [left|right]; auto. }
      rewrite (scale10_eq _ _ _ _ Hpq). apply nr_exponent with (e := z); [apply mantissa_iff; exact Em|apply is_e_iff; exact He|apply signed_run_iff; exact Ez|exact Hpq].
    + subst m. destruct (mantissa s) as [v|] eqn:Em; [|discriminate]. intros H. match type of H with option_map _ _ = Some ?b => assert (b = Fin v) as -> by (cbn in H; congruence) end.
      apply nr_decimal, mantissa_iff. exact Em.
  - intros [m v H | m v c t e p q H Hc Ht Hpq | t H | t H | t H].
    + destruct (decimal_chars _ _ H) as [N F]. rewrite <- (app_nil_r m). rewrite (unsigned_float_dec m []) by assumption. rewrite app_nil_r, split_e_none by exact F.
      apply mantissa_iff in H. rewrite H. reflexivity.
    + destruct (decimal_chars _ _ H) as [N F]. rewrite (unsigned_float_dec m (c :: t)) by assumption. rewrite split_e_some by (try assumption; apply is_e_iff; exact Hc).
      apply mantissa_iff in H. rewrite H. apply (proj2 (signed_run_iff _ _)) in Ht. rewrite Ht. rewrite (scale10_eq _ _ _ _ Hpq). reflexivity.
    + unfold unsigned_float. rewrite (proj2 (inf_iff _) H). reflexivity.
    + unfold unsigned_float. rewrite (proj2 (infinity_iff _) H). rewrite orb_true_r. reflexivity.
    + unfold unsigned_float. rewrite (proj2 (nan_iff _) H).
      assert (lower t = txt "nan") as -> by (apply bytes_eqb_iff, nan_iff; exact H). reflexivity.
Qed.
Lemma word_chars w s : Forall (fun c => (97 <= code c <= 122)%Z) (txt w) -> txt w <> [] -> any_case w s -> s <> [] /\ Forall (fun c => (65 <= code c <= 122)%Z) s.
Proof.
  unfold any_case. generalize (txt w). intros l Hl N H. split; [intros ->; inversion H; subst; congruence|]. clear N. induction H as [|a c l s Hc _ IH]; [constructor|].
  inversion Hl; subst. constructor; [|auto]. destruct Hc as [-> | [? ?]]; lia.
Qed.
Lemma letter_solid s : Forall (fun c => (65 <= code c <= 122)%Z) s -> Forall solid s.
Proof. intros H. eapply Forall_impl; [|exact H]. cbv beta. intros c Hc. unfold solid. destruct (blank c) eqn:E; [|reflexivity]. apply blank_iff in E. unfold white in E. lia. Qed.
Lemma dec_solid s : Forall dec_char s -> Forall solid s.
Proof. intros H. eapply Forall_impl; [|exact H]. intros c Hc. unfold solid. destruct (blank c) eqn:E; [|reflexivity]. apply blank_iff in E. unfold white, dec_char, plain_num in *. lia. Qed.
Lemma number_solid s x : number s x -> s <> [] /\ Forall solid s.
Proof.
  intros [m v H | m v c t e p q H Hc Ht Hpq | t H | t H | t H].
  - destruct (decimal_chars _ _ H) as [N F]. split; [exact N|apply dec_solid; exact F].
  - destruct (decimal_chars _ _ H) as [N F]. split; [destruct m; discriminate|]. apply Forall_app. split; [apply dec_solid; exact F|].
    constructor; [destruct Hc as [-> | ->]; reflexivity|]. destruct Ht as [(k & Hk) | [(u & -> & (k & Hk)) | (u & y & -> & (k & Hk) & _)]].
    + apply (numeral_solid _ _ _ Hk).
    + constructor; [reflexivity|apply (numeral_solid _ _ _ Hk)].
    + constructor; [reflexivity|apply (numeral_solid _ _ _ Hk)].
  - apply word_chars in H; [|apply letters; reflexivity|discriminate]. split; [apply H|apply letter_solid, H].
  - apply word_chars in H; [|apply letters; reflexivity|discriminate]. split; [apply H|apply letter_solid, H].
  - apply word_chars in H; [|apply letters; reflexivity|discriminate]. split; [apply H|apply letter_solid, H].
Qed.
Lemma number_sign t y c u : number t y -> t = c :: u -> code c <> 43%Z /\ code c <> 45%Z.
Proof.
  intros H ->. remember (c :: u) as s eqn:E. destruct H as [m v H | m v c' t e p q H Hc Ht Hpq | t H | t H | t H].
  1,2: destruct (decimal_chars _ _ H) as [N F]; destruct m as [|c0 m]; [congruence|]; injection E as -> _; inversion F as [|? ? F1 _]; subst; unfold dec_char, plain_num in F1; lia.
  all: apply word_chars in H; [|apply letters; reflexivity|discriminate]; subst t; destruct H as [_ F]; inversion F; subst; lia.
Qed.
Theorem py_float_iff s x : py_float (txt s) = Some x <-> float_text s x.
Proof.
  unfold py_float, float_text.
  assert (forall s, signed unsigned_float ext_opp s = Some x <-> with_sign number opposite s x) as key.
  { intros t. apply (signed_iff unsigned_float number ext_opp); [intros; apply unsigned_float_iff|exact number_sign]. }
  split.
  - intros H. apply key in H. exists (strip (txt s)). split; [apply strip_inv|exact H].
  - intros (core & Hs & H). rewrite (strip_spec _ core); [apply key; exact H| |exact Hs].
    apply (signed_solid number opposite core x); [exact number_solid|exact H].
Qed.
