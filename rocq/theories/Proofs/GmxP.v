(** Proofs about gmx_flow files. *)
From Coq Require Import String Ascii.
From Verif.Base Require Import QcX Res Np Bytes Sums ListX.
From Verif.Model Require Import Text Gmx.
From Verif.Proofs Require Import TextP GridAverageP.
Local Open Scope list_scope.

(** ** The header and its end *)
Definition no_nul (h : bytes) : Prop := Forall (fun b => code b <> 0%Z) h.
Definition all_ascii (h : bytes) : Prop := Forall (fun b => is_ascii b = true) h.
Lemma find_nul_none h : no_nul h -> find_nul h = None.
Proof. induction 1 as [|b h Hb _ IH]; simpl; [reflexivity|]. destruct (Z.eqb_spec (code b) 0); [contradiction|]. rewrite IH. reflexivity. Qed.
Lemma find_nul_at h d : no_nul h -> find_nul (h ++ nul :: d) = Some (length h).
Proof. induction 1 as [|b h Hb _ IH]; simpl; [reflexivity|]. destruct (Z.eqb_spec (code b) 0); [contradiction|]. rewrite IH. reflexivity. Qed.
Lemma no_nul_firstn k h : no_nul h -> no_nul (firstn k h).
Proof. intros H. apply Forall_forall. intros x Hx. eapply Forall_forall in H; [exact H|]. rewrite <- (firstn_skipn k h). apply in_or_app. auto. Qed.
Lemma no_nul_skipn k h : no_nul h -> no_nul (skipn k h).
Proof. intros H. apply Forall_forall. intros x Hx. eapply Forall_forall in H; [exact H|]. rewrite <- (firstn_skipn k h). apply in_or_app. auto. Qed.
Lemma ascii_forallb h : all_ascii h -> forallb is_ascii h = true.
Proof. intros H. apply forallb_forall. apply Forall_forall. exact H. Qed.
Lemma ascii_part a b : all_ascii (a ++ b) -> all_ascii a /\ all_ascii b.
Proof. apply Forall_app. Qed.
Lemma firstn_firstn_app {A} n (h d : list A) : (n <= length h)%nat -> firstn n (h ++ d) = firstn n h.
Proof. intros H. rewrite firstn_app. replace (n - length h)%nat with 0%nat by lia. rewrite firstn_O, app_nil_r. reflexivity. Qed.

(** [e] is the end of the chunk in which the header ends. *)
Definition chunk_end (h : bytes) : nat := (1024 * (length h / 1024 + 1))%nat.
Lemma header_loop h d : no_nul h -> all_ascii h -> forall fuel c, (1024 * c <= length h)%nat -> (length h / 1024 - c < fuel)%nat ->
  read_header_string fuel (h ++ nul :: d) (1024 * c) (firstn (1024 * c) h) =
  let target := (Z.of_nat (length h + 1) - Z.of_nat (chunk_end h - (length h + 1 + length d)))%Z in
  if (target <? 0)%Z then Err OSErr else Ok (h, Z.to_nat target).
Proof.
  intros Hn Ha. induction fuel as [|fuel IH]; intros c Hc Hf; [lia|].
  assert (length h / 1024 < S c \/ 1024 * S c <= length h)%nat as [L|L].
  { destruct (Nat.lt_ge_cases (length h) (1024 * S c)); [left; apply Nat.div_lt_upper_bound; lia|right; lia]. }
  - (* last chunk *)
    assert (length h / 1024 = c)%nat as E by (assert (c <= length h / 1024)%nat by (apply Nat.div_le_lower_bound; lia); lia).
    assert (length h < 1024 * S c)%nat as L2. { pose proof (Nat.mul_succ_div_gt (length h) 1024 ltac:(lia)). rewrite E in H. lia. }
    cbn [read_header_string]. rewrite skipn_app. replace (1024 * c - length h)%nat with 0%nat by lia. rewrite skipn_O.
    set (h2 := skipn (1024 * c) h). assert (length h2 = length h - 1024 * c)%nat as Lh2 by apply skipn_length.
    rewrite firstn_app. rewrite (firstn_all2 h2) by lia.
    destruct (1024 - length h2)%nat as [|r] eqn:Er; [lia|]. cbn [firstn].
    rewrite find_nul_at by (apply no_nul_skipn; assumption).
    rewrite firstn_app, Nat.sub_diag, firstn_O, app_nil_r, firstn_all.
    assert (all_ascii h2) as Ha2. { rewrite <- (firstn_skipn (1024 * c) h) in Ha. apply ascii_part in Ha. apply Ha. }
    rewrite ascii_forallb by assumption. cbn [negb]. rewrite app_length. cbn [length]. rewrite firstn_length.
    replace (firstn (1024 * c) h ++ h2) with h by (unfold h2; symmetry; apply firstn_skipn).
    cbv zeta. match goal with |- (if (?a <? 0)%Z then _ else _) = (if (?b <? 0)%Z then _ else _) => assert (a = b) as -> end; [|reflexivity].
    unfold chunk_end. rewrite E. lia.
  - cbn [read_header_string]. rewrite skipn_app. replace (1024 * c - length h)%nat with 0%nat by lia. rewrite skipn_O.
    set (h2 := skipn (1024 * c) h). assert (length h2 = length h - 1024 * c)%nat as Lh2 by apply skipn_length.
    rewrite firstn_firstn_app by lia. rewrite find_nul_none by (apply no_nul_firstn, no_nul_skipn; assumption).
    assert (all_ascii h2) as Ha2. { rewrite <- (firstn_skipn (1024 * c) h) in Ha. apply ascii_part in Ha. apply Ha. }
    assert (all_ascii (firstn 1024 h2)) as Ha3. { rewrite <- (firstn_skipn 1024 h2) in Ha2. apply ascii_part in Ha2. apply Ha2. }
    rewrite ascii_forallb by assumption. cbn [negb].
    replace (1024 * c + length (firstn 1024 h2))%nat with (1024 * S c)%nat by (rewrite firstn_length; lia).
    replace (firstn (1024 * c) h ++ firstn 1024 h2) with (firstn (1024 * S c) h).
    + apply IH; lia.
    + unfold h2. replace (1024 * S c)%nat with (1024 * c + 1024)%nat by lia. rewrite <- (firstn_skipn (1024 * c) h) at 1.
      rewrite firstn_app. rewrite firstn_firstn, Nat.min_r by lia. f_equal. f_equal. rewrite firstn_length. lia.
Qed.
Lemma header_end h d fuel : no_nul h -> all_ascii h -> (length h / 1024 < fuel)%nat ->
  read_header_string fuel (h ++ nul :: d) 0 [] =
  let target := (Z.of_nat (length h + 1) - Z.of_nat (chunk_end h - (length h + 1 + length d)))%Z in
  if (target <? 0)%Z then Err OSErr else Ok (h, Z.to_nat target).
Proof. intros Hn Ha Hf. apply (header_loop h d Hn Ha fuel 0); lia. Qed.
Lemma no_end fuel file : no_nul file -> all_ascii file -> read_header_string fuel file 0 [] = Err OutOfFuel.
Proof.
  intros Hn Ha. generalize 0%nat. generalize (@nil byte). induction fuel as [|fuel IH]; intros acc pos; [reflexivity|].
  cbn [read_header_string]. rewrite find_nul_none by (apply no_nul_firstn, no_nul_skipn; assumption).
  assert (all_ascii (firstn 1024 (skipn pos file))) as A.
  { apply Forall_forall. intros x Hx. eapply Forall_forall in Ha; [exact Ha|]. rewrite <- (firstn_skipn pos file). apply in_or_app. right.
    rewrite <- (firstn_skipn 1024 (skipn pos file)). apply in_or_app. left. assumption. }
  rewrite ascii_forallb by assumption. apply IH.
Qed.

(** ** The lines of the header *)
Definition unbrokenb (s : bytes) : bool := forallb (fun b => negb (is_break b)) s.
Lemma unbrokenb_true s : unbrokenb s = true -> Forall unbroken s.
Proof. unfold unbrokenb. rewrite forallb_forall. intros H. apply Forall_forall. intros x Hx. apply H in Hx. apply negb_true_iff in Hx. assumption. Qed.
Lemma line_nl w s : unbrokenb w = true -> lines (w ++ nl ++ s) = w :: lines s.
Proof. intros H. apply lines_newline, unbrokenb_true. assumption. Qed.
Lemma unbrokenb_app a b : unbrokenb (a ++ b) = (unbrokenb a && unbrokenb b)%bool.
Proof. apply forallb_app. Qed.
Lemma plain_unbrokenb s : Forall plain s -> unbrokenb s = true.
Proof. intros H. apply forallb_forall. intros x Hx. apply negb_true_iff, plain_unbroken. eapply Forall_forall; eassumption. Qed.
Lemma fmt12f_unbroken x : unbrokenb (fmt12f x) = true.
Proof.
  unfold fmt12f, pad_left. rewrite unbrokenb_app, (plain_unbrokenb (fmt_f x)) by apply fmt_f_plain. rewrite andb_true_r.
  induction (12 - length (fmt_f x))%nat as [|k IH]; [reflexivity|exact IH].
Qed.
Lemma fmt_int_unbroken z : unbrokenb (fmt_int z) = true.
Proof. apply plain_unbrokenb, fmt_int_plain. Qed.
Lemma words_word s w rest : forall sp, is_space sp = true -> Forall plain w -> w <> [] -> s = w ++ sp :: rest -> words s = w :: words rest.
Proof. intros spc Hs Hp Hn ->. apply words_space; assumption. Qed.
Definition plainb (s : bytes) : bool := forallb (fun b => negb (is_space b)) s.
Lemma plainb_true s : plainb s = true -> Forall plain s.
Proof. unfold plainb. rewrite forallb_forall. intros H. apply Forall_forall. intros x Hx. apply H in Hx. apply negb_true_iff in Hx. assumption. Qed.
Lemma words_pad w s : words (pad_left w s) = words s.
Proof. unfold pad_left. apply words_skip. apply Forall_forall. intros x Hx. apply repeat_spec in Hx. subst. reflexivity. Qed.
Lemma words_pad_app w s r : words (pad_left w s ++ r) = words (s ++ r).
Proof. unfold pad_left. rewrite <- app_assoc. apply words_skip. apply Forall_forall. intros x Hx. apply repeat_spec in Hx. subst. reflexivity. Qed.

Lemma words_two_f kw a b : plainb kw = true -> kw <> [] -> words ((kw ++ sp) ++ fmt12f a ++ sp ++ fmt12f b) = [kw; fmt_f a; fmt_f b].
Proof.
  intros Hk Hn. rewrite <- app_assoc. unfold sp. cbn [app]. rewrite words_space; [|apply plainb_true; assumption|assumption|reflexivity]. f_equal.
  unfold fmt12f. rewrite words_pad_app. destruct (fmt_f_plain a), (fmt_f_plain b). rewrite words_space by (try assumption; reflexivity). f_equal. rewrite words_pad. apply words_end; assumption.
Qed.
Lemma words_two_i kw a b : plainb kw = true -> kw <> [] -> words ((kw ++ sp) ++ fmt_int a ++ sp ++ fmt_int b) = [kw; fmt_int a; fmt_int b].
Proof.
  intros Hk Hn. rewrite <- app_assoc. unfold sp. cbn [app]. rewrite words_space; [|apply plainb_true; assumption|assumption|reflexivity]. f_equal.
  destruct (fmt_int_plain a), (fmt_int_plain b). rewrite words_space by (try assumption; reflexivity). f_equal. apply words_end; assumption.
Qed.
Lemma words_one_i kw a : plainb kw = true -> kw <> [] -> words ((kw ++ sp) ++ fmt_int a) = [kw; fmt_int a].
Proof.
  intros Hk Hn. rewrite <- app_assoc. unfold sp. cbn [app]. rewrite words_space; [|apply plainb_true; assumption|assumption|reflexivity]. f_equal.
  destruct (fmt_int_plain a). apply words_end; assumption.
Qed.

Lemma read_lines_cons st l ls st' : read_line st l = Ok st' -> read_lines st (l :: ls) = read_lines st' ls.
Proof. intros H. simpl. rewrite H. reflexivity. Qed.
Definition written_state (i : ginfo) (num : Z) : hstate :=
  mkH (Some [fst (g_shape i); snd (g_shape i)]) (Some [round6 (fst (g_spacing i)); round6 (snd (g_spacing i))])
      (Some [round6 (fst (g_origin i)); round6 (snd (g_origin i))])
      (Some (map txt ["IX"; "IY"; "N"; "T"; "M"; "U"; "V"]%string)) (Some num).
Lemma header_lines i num : read_lines h0 (lines (header i num)) = Ok (written_state i num).
Proof.
  unfold header. rewrite line_nl by reflexivity.
  rewrite line_nl by (rewrite !unbrokenb_app, !fmt12f_unbroken; reflexivity).
  rewrite line_nl by (rewrite !unbrokenb_app, !fmt_int_unbroken; reflexivity).
  rewrite line_nl by (rewrite !unbrokenb_app, !fmt12f_unbroken; reflexivity).
  rewrite line_nl by (rewrite !unbrokenb_app, !fmt_int_unbroken; reflexivity).
  rewrite line_nl by reflexivity.
  rewrite (read_lines_cons _ _ _ h0) by reflexivity.
  assert (forall st a b, read_line st (txt "ORIGIN " ++ fmt12f a ++ sp ++ fmt12f b) = Ok (mkH (h_shape st) (h_spacing st) (Some [round6 a; round6 b]) (h_fields st) (h_num st))) as R1.
  { intros st a b. unfold read_line. change (txt "ORIGIN ") with (txt "ORIGIN" ++ sp). rewrite words_two_f by (try reflexivity; discriminate).
    change (upper (txt "ORIGIN")) with (txt "ORIGIN"). change (bytes_eqb (txt "ORIGIN") (txt "SHAPE")) with false. change (bytes_eqb (txt "ORIGIN") (txt "SPACING")) with false.
    change (bytes_eqb (txt "ORIGIN") (txt "ORIGIN")) with true. cbn iota. unfold two. cbn [skipn firstn rmapM]. rewrite !to_float_fmt. reflexivity. }
  assert (forall st a b, read_line st (txt "SPACING " ++ fmt12f a ++ sp ++ fmt12f b) = Ok (mkH (h_shape st) (Some [round6 a; round6 b]) (h_origin st) (h_fields st) (h_num st))) as R2.
  { intros st a b. unfold read_line. change (txt "SPACING ") with (txt "SPACING" ++ sp). rewrite words_two_f by (try reflexivity; discriminate).
    change (upper (txt "SPACING")) with (txt "SPACING"). change (bytes_eqb (txt "SPACING") (txt "SHAPE")) with false. change (bytes_eqb (txt "SPACING") (txt "SPACING")) with true.
    cbn iota. unfold two. cbn [skipn firstn rmapM]. rewrite !to_float_fmt. reflexivity. }
  assert (forall st a b, read_line st (txt "SHAPE " ++ fmt_int a ++ sp ++ fmt_int b) = Ok (mkH (Some [a; b]) (h_spacing st) (h_origin st) (h_fields st) (h_num st))) as R3.
  { intros st a b. unfold read_line. change (txt "SHAPE ") with (txt "SHAPE" ++ sp). rewrite words_two_i by (try reflexivity; discriminate).
    change (upper (txt "SHAPE")) with (txt "SHAPE"). change (bytes_eqb (txt "SHAPE") (txt "SHAPE")) with true.
    cbn iota. unfold two. cbn [skipn firstn rmapM]. rewrite !to_int_fmt. reflexivity. }
  assert (forall st a, read_line st (txt "NUMDATA " ++ fmt_int a) = Ok (mkH (h_shape st) (h_spacing st) (h_origin st) (h_fields st) (Some a))) as R4.
  { intros st a. unfold read_line. change (txt "NUMDATA ") with (txt "NUMDATA" ++ sp). rewrite words_one_i by (try reflexivity; discriminate).
    change (upper (txt "NUMDATA")) with (txt "NUMDATA"). change (bytes_eqb (txt "NUMDATA") (txt "SHAPE")) with false. change (bytes_eqb (txt "NUMDATA") (txt "SPACING")) with false.
    change (bytes_eqb (txt "NUMDATA") (txt "ORIGIN")) with false. change (bytes_eqb (txt "NUMDATA") (txt "FIELDS")) with false. change (bytes_eqb (txt "NUMDATA") (txt "NUMDATA")) with true.
    cbn iota. rewrite to_int_fmt. reflexivity. }
  rewrite (read_lines_cons _ _ _ _ (R1 _ _ _)), (read_lines_cons _ _ _ _ (R3 _ _ _)), (read_lines_cons _ _ _ _ (R2 _ _ _)), (read_lines_cons _ _ _ _ (R4 _ _)).
  cbn [h_shape h_spacing h_origin h_fields h_num h0].
  remember (round6 (fst (g_origin i))) as a1. remember (round6 (snd (g_origin i))) as a2. remember (round6 (fst (g_spacing i))) as a3. remember (round6 (snd (g_spacing i))) as a4.
  unfold written_state. rewrite <- Heqa1, <- Heqa2, <- Heqa3, <- Heqa4. clear. destruct i as [[s1 s2] i2 i3]. cbn [fst snd g_shape]. clear.
  vm_compute. reflexivity.
Qed.
Definition clean (b : byte) : Prop := (0 < code b < 128)%Z.
Definition cleanb (s : bytes) : bool := forallb (fun b => (0 <? code b) && (code b <? 128))%Z s.
Lemma cleanb_true s : cleanb s = true <-> Forall clean s.
Proof.
  unfold cleanb. rewrite forallb_forall, Forall_forall. split; intros H x Hx; specialize (H x Hx).
  - apply andb_true_iff in H. destruct H as [H1 H2]. apply Z.ltb_lt in H1, H2. split; assumption.
  - destruct H. apply andb_true_iff. split; apply Z.ltb_lt; assumption.
Qed.
Lemma clean_digits s : Forall is_digit s -> Forall clean s.
Proof. apply Forall_impl. unfold is_digit, clean. intros. lia. Qed.
Lemma clean_fmt_int z : Forall clean (fmt_int z).
Proof.
  unfold fmt_int. destruct (z <? 0)%Z; [rewrite txt_app; apply Forall_app; split; [apply cleanb_true; reflexivity|]|]; apply clean_digits, dec_digits.
Qed.
Lemma clean_fmt_f x : Forall clean (fmt_f x).
Proof.
  unfold fmt_f. set (n := qround _). destruct (fixed6_eq n) as (i & f & E & Di & Df & _). rewrite E.
  assert (Forall clean (i ++ chr 46 :: f)) as H.
  { apply Forall_app. split; [apply clean_digits; assumption|]. constructor; [unfold clean; vm_compute; split; reflexivity|apply clean_digits; assumption]. }
  destruct (qlt x 0); [constructor; [unfold clean; vm_compute; split; reflexivity|]|]; assumption.
Qed.
Lemma clean_fmt12f x : Forall clean (fmt12f x).
Proof.
  unfold fmt12f, pad_left. apply Forall_app. split; [|apply clean_fmt_f]. apply Forall_forall. intros b Hb. apply repeat_spec in Hb. subst. unfold clean. vm_compute. split; reflexivity.
Qed.
Lemma header_clean i num : Forall clean (header i num).
Proof.
  assert (Forall clean comments) as C by (apply cleanb_true; vm_compute; reflexivity).
  unfold header. rewrite !Forall_app. repeat match goal with |- _ /\ _ => split end;
    first [exact C | apply clean_fmt12f | apply clean_fmt_int | apply cleanb_true; vm_compute; reflexivity].
Qed.
Lemma clean_no_nul s : Forall clean s -> no_nul s.
Proof. apply Forall_impl. unfold clean. intros. lia. Qed.
Lemma clean_ascii s : Forall clean s -> all_ascii s.
Proof. apply Forall_impl. unfold clean, is_ascii. intros a H. apply Z.ltb_lt. lia. Qed.
