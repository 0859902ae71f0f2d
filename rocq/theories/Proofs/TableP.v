(** Text tables: what is read is what was written, rounded. *)
From Coq Require Import String Ascii.
From Verif.Base Require Import QcX Res Np Bytes.
From Verif.Model Require Import Utils Text Gmx Simple Table.
From Verif.Spec Require Import TableSpec.
From Verif.Proofs Require Import UtilsFiles TextP SimpleP.
Local Open Scope list_scope.
Local Notation length := List.length.

(** ** Numbers *)
Lemma pow10_pos d : (0 < 10 ^ Z.of_nat d)%Z. Proof. apply Z.pow_pos_nonneg; lia. Qed.
Lemma unit_pos d : 0 < ZQ (10 ^ Z.of_nat d). Proof. rewrite <- ZQ_0. apply ZQ_lt, pow10_pos. Qed.
Lemma fixed_eq d n : (0 < d)%nat -> exists i f, fixed d n = i ++ chr 46 :: f /\ Forall is_digit i /\ Forall is_digit f /\ i <> [] /\ f <> [] /\
  ((0 <= n)%Z -> length f = d /\ digits i = Some (n / 10 ^ Z.of_nat d)%Z /\ digits f = Some (n mod 10 ^ Z.of_nat d)%Z).
Proof.
  intros Hd. set (P := (10 ^ Z.of_nat d)%Z). pose proof (pow10_pos d) as HP. fold P in HP.
  exists (txt (dec (Z.to_N (n / P)))), (txt (zeros (d - String.length (dec (Z.to_N (n mod P)))) ++ dec (Z.to_N (n mod P)))%string).
  pose proof (Z.mod_pos_bound n P HP) as B.
  split; [unfold fixed; fold P; rewrite !txt_app; reflexivity|]. split; [apply dec_digits|]. split; [rewrite txt_app; apply Forall_app; split; [apply zeros_digits|apply dec_digits]|].
  split; [apply dec_nonempty|]. split. { rewrite txt_app. intros C. apply app_eq_nil in C. apply (dec_nonempty (Z.to_N (n mod P))). apply C. }
  intros H. assert (String.length (dec (Z.to_N (n mod P))) <= d)%nat as L.
  { apply dec_length; [exact Hd|]. assert ((10 ^ N.of_nat d)%N = Z.to_N P) as -> by (unfold P; rewrite Z2N.inj_pow by lia; f_equal; lia). lia. }
  split. { rewrite txt_app, app_length, !txt_length, zeros_length. lia. }
  rewrite digits_padded, digits_dec, !Z2N.id by (try lia; apply Z.div_pos; lia). auto.
Qed.
Lemma udecimal_fixed d n : (0 < d)%nat -> (0 <= n)%Z -> udecimal (fixed d n) = Some (ZQ n / ZQ (10 ^ Z.of_nat d)).
Proof.
  intros Hd H. destruct (fixed_eq d n Hd) as (i & f & E & Di & Df & Ni & Nf & K). destruct (K H) as (L & Vi & Vf).
  unfold udecimal. rewrite E, split_dot_digits by assumption. destruct i as [|i0 i]; [congruence|]. destruct f as [|f0 f]; [congruence|].
  rewrite Vi, Vf, L. f_equal. pose proof (pow10_pos d) as HP. pose proof (qpos_nz _ (unit_pos d)) as NZ. set (P := (10 ^ Z.of_nat d)%Z) in *.
  rewrite (Z.div_mod n P) at 3 by lia. rewrite ZQ_add, ZQ_mul. field. exact NZ.
Qed.
(** The number which ['%.<d>f'] shows. *)
Definition round_dec (d : nat) (x : Qc) : Qc :=
  let v := ZQ (qround (qabs x * ZQ (10 ^ Z.of_nat d))) / ZQ (10 ^ Z.of_nat d) in if qlt x 0 then - v else v.
Lemma scaled_pos d x : 0 <= qabs x * ZQ (10 ^ Z.of_nat d).
Proof. apply qmult_nonneg; [apply qabs_nonneg|apply Qclt_le_weak, unit_pos]. Qed.
Lemma to_float_fixed d x : (0 < d)%nat -> to_float (fmt_fixed d x) = Ok (round_dec d x).
Proof.
  intros Hd. unfold to_float, fmt_fixed, round_dec. pose proof (scaled_pos d x) as SP. set (n := qround (qabs x * ZQ (10 ^ Z.of_nat d))). assert (0 <= n)%Z as Hn by (apply qround_nonneg, SP).
  destruct (qlt x 0).
  - cbn [signed]. change (code (chr 45) =? 45)%Z with true. cbn iota. rewrite udecimal_fixed by assumption. reflexivity.
  - assert (signed udecimal Qcopp (fixed d n) = udecimal (fixed d n)) as ->.
    { destruct (fixed_eq d n Hd) as (i & f & E & Di & _ & Ni & _). rewrite E. destruct i as [|b i]; [congruence|]. inversion Di as [|? ? Hb _]; subst. unfold is_digit in Hb.
      cbn [app signed]. destruct (Z.eqb_spec (code b) 45); [lia|]. destruct (Z.eqb_spec (code b) 43); [lia|]. reflexivity. }
    rewrite udecimal_fixed by assumption. reflexivity.
Qed.
Lemma to_ext_fixed x : to_ext (fmt_fixed 3 x) = Fin (round_dec 3 x).
Proof. unfold to_ext. rewrite to_float_fixed by lia. reflexivity. Qed.
Lemma fixed_plain d n : (0 < d)%nat -> Forall plain (fixed d n) /\ fixed d n <> [].
Proof.
  intros Hd. destruct (fixed_eq d n Hd) as (i & f & E & Di & Df & Ni & _). rewrite E. split.
  - apply Forall_app. split; [apply Forall_plain; assumption|]. constructor; [reflexivity|apply Forall_plain; assumption].
  - destruct i; [congruence|discriminate].
Qed.
Lemma fmt_fixed_plain d x : (0 < d)%nat -> Forall plain (fmt_fixed d x) /\ fmt_fixed d x <> [].
Proof.
  intros Hd. unfold fmt_fixed. destruct (fixed_plain d (qround (qabs x * ZQ (10 ^ Z.of_nat d))) Hd) as [A B]. destruct (qlt x 0); [|auto]. split; [constructor; [reflexivity|assumption]|discriminate].
Qed.
Lemma fmt_fixed_fplain d x : (0 < d)%nat -> fplain (fmt_fixed d x).
Proof.
  intros Hd. unfold fmt_fixed. set (n := qround _). destruct (fixed_eq d n Hd) as (i & f & E & Di & Df & _). rewrite E.
  assert (fplain (i ++ chr 46 :: f)) as H.
  { apply fplain_app. split; [apply digits_fplain; assumption|]. constructor; [vm_compute; repeat split; discriminate|apply digits_fplain; assumption]. }
  destruct (qlt x 0); [constructor; [vm_compute; repeat split; discriminate|]|]; assumption.
Qed.

(** ** Rounding *)
Lemma qround_nearest q z : qabs (q - ZQ (qround q)) <= qabs (q - ZQ z).
Proof.
  pose proof (qround_near q) as N. set (r := qround q) in *. destruct (Z.eq_dec z r) as [-> |D]; [apply Qcle_refl|].
  apply Qcle_trans with (Q2Qc (1 # 2)); [exact N|]. apply qabs_le in N. destruct N as [N1 N2].
  assert (ZQ z <= ZQ r - 1 \/ ZQ r + 1 <= ZQ z) as [K|K].
  { destruct (Z_lt_le_dec z r); [left|right]; rewrite <- ZQ_1; [rewrite <- ZQ_sub|rewrite <- ZQ_add]; apply ZQ_le; lia. }
  - unfold qabs. destruct (qle_spec 0 (q - ZQ z)) as [A|A]; [qlra'|]. apply Qcnot_le_lt in A. qlra'.
  - unfold qabs. destruct (qle_spec 0 (q - ZQ z)) as [A|A]; [qlra'|]. apply Qcnot_le_lt in A. qlra'.
Qed.
Lemma round_dec_nearest d x : nearest_decimal d x (round_dec d x).
Proof.
  unfold nearest_decimal, round_dec. pose proof (unit_pos d) as U. set (P := ZQ (10 ^ Z.of_nat d)) in *. pose proof (qpos_nz _ U) as NZ.
  assert (forall y z, qabs (y / P - z / P) = qabs (y - z) / P) as SC.
  { intros y z. replace (y / P - z / P) with ((y - z) / P) by (field; exact NZ). unfold qabs. 
    assert (forall t, 0 <= t / P <-> 0 <= t) as S. { intros t. rewrite qle_div_iff by exact U. rewrite Qcmult_0_l. tauto. }
    destruct (qle_spec 0 ((y - z) / P)) as [A|A]; rewrite S in A; destruct (qle_spec 0 (y - z)); try contradiction; [reflexivity|field; exact NZ]. }
  assert (x = (x * P) / P) as EX by (field; exact NZ).
  destruct (qlt_spec x 0) as [L|L].
  - assert (qabs x = - x) as Ex. { unfold qabs. destruct (qle_spec 0 x); [exfalso; qlra|reflexivity]. }
    rewrite Ex. set (r := qround (- x * P)). split; [exists (- r)%Z; rewrite ZQ_opp; field; exact NZ|].
    intros n. replace (- (ZQ r / P)) with (ZQ (- r) / P) by (rewrite ZQ_opp; field; exact NZ). rewrite EX, !SC. apply qdiv_le_iff; [exact U|].
    replace (qabs (ZQ n - x * P) / P * P) with (qabs (ZQ n - x * P)) by (field; exact NZ).
    pose proof (qround_nearest (- x * P) (- n)) as K. fold r in K. rewrite !ZQ_opp in *.
    replace (- x * P - - ZQ n) with (ZQ n - x * P) in K by ring. replace (- x * P - ZQ r) with (- ZQ r - x * P) in K by ring. exact K.
  - assert (qabs x = x) as Ex. { unfold qabs. destruct (qle_spec 0 x) as [_|C]; [reflexivity|]. exfalso. apply C, Qcnot_lt_le. assumption. }
    rewrite Ex. set (r := qround (x * P)). split; [exists r; reflexivity|].
    intros n. rewrite EX at 1 2. rewrite !SC. apply qdiv_le_iff; [exact U|].
    replace (qabs (ZQ n - x * P) / P * P) with (qabs (ZQ n - x * P)) by (field; exact NZ).
    pose proof (qround_nearest (x * P) n) as K. fold r in K.
    rewrite <- (qabs_opp (x * P - ZQ r)), <- (qabs_opp (x * P - ZQ n)) in K.
    replace (- (x * P - ZQ n)) with (ZQ n - x * P) in K by ring. replace (- (x * P - ZQ r)) with (ZQ r - x * P) in K by ring. exact K.
Qed.
Lemma qround_mono p q : p <= q -> (qround p <= qround q)%Z.
Proof.
  intros H. destruct (Z_lt_le_dec (qround q) (qround p)) as [C|C]; [|exact C]. exfalso.
  pose proof (qround_near p) as A. pose proof (qround_near q) as B. apply qabs_le in A, B. destruct A as [A1 A2], B as [B1 B2].
  assert (ZQ (qround q) + 1 <= ZQ (qround p)) as D by (rewrite <- ZQ_1, <- ZQ_add; apply ZQ_le; lia).
  assert (p = q) as E. { apply Qcle_antisym; [exact H|]. generalize dependent (ZQ (qround p)). generalize dependent (ZQ (qround q)). intros. qlra'. }
  subst q. lia.
Qed.
Lemma round_dec_sign d x : (0 <= x -> round_dec d x = ZQ (qround (x * ZQ (10 ^ Z.of_nat d))) / ZQ (10 ^ Z.of_nat d)) /\
  (x <= 0 -> round_dec d x = - (ZQ (qround (- x * ZQ (10 ^ Z.of_nat d))) / ZQ (10 ^ Z.of_nat d))).
Proof.
  unfold round_dec. split; intros H.
  - destruct (qlt_spec x 0) as [L|L]; [exfalso; qlra|]. assert (qabs x = x) as -> by (unfold qabs; destruct (qle_spec 0 x); [reflexivity|contradiction]). reflexivity.
  - destruct (qlt_spec x 0) as [L|L].
    + assert (qabs x = - x) as ->. { unfold qabs. destruct (qle_spec 0 x); [exfalso; qlra|reflexivity]. } reflexivity.
    + assert (x = 0) as -> by (apply Qcle_antisym; [exact H|apply Qcnot_lt_le; exact L]).
      assert (qabs 0 = 0) as -> by (apply Qc_is_canon; reflexivity). replace (- (0) * ZQ (10 ^ Z.of_nat d)) with 0 by ring. rewrite Qcmult_0_l.
      rewrite <- ZQ_0 at 1 2. rewrite !qround_ZQ, ZQ_0. field. apply (qpos_nz _ (unit_pos d)).
Qed.
Lemma round_dec_opp d x : round_dec d (- x) = - round_dec d x.
Proof.
  assert (0 <= x \/ x <= 0) as [H|H] by apply Qcle_total || (destruct (Qclt_le_dec x 0); [right; apply Qclt_le_weak; assumption|left; assumption]).
  - rewrite (proj1 (round_dec_sign d x) H), (proj2 (round_dec_sign d (- x))) by qlra'. rewrite Qcopp_involutive. reflexivity.
  - rewrite (proj2 (round_dec_sign d x) H), (proj1 (round_dec_sign d (- x))) by qlra'. rewrite Qcopp_involutive. reflexivity.
Qed.
Lemma round_dec_nonneg d x : 0 <= x -> 0 <= round_dec d x.
Proof.
  intros H. rewrite (proj1 (round_dec_sign d x) H). apply qle_div_iff; [apply unit_pos|]. rewrite Qcmult_0_l, <- ZQ_0. apply ZQ_le, qround_nonneg.
  apply qmult_nonneg; [exact H|apply Qclt_le_weak, unit_pos].
Qed.
Lemma round_dec_mono_pos d x y : 0 <= x -> x <= y -> round_dec d x <= round_dec d y.
Proof.
  intros H L. rewrite (proj1 (round_dec_sign d x)), (proj1 (round_dec_sign d y)) by qlra'. pose proof (unit_pos d) as U. apply qdiv_le_iff; [exact U|].
  match goal with |- _ <= ?a / ?u * ?u => replace (a / u * u) with a by (field; apply (qpos_nz _ U)) end.
  apply ZQ_le, qround_mono. rewrite !(Qcmult_comm _ (ZQ _)). apply qmult_le_compat_l; [apply Qclt_le_weak; exact U|exact L].
Qed.
Lemma round_dec_mono d x y : x <= y -> round_dec d x <= round_dec d y.
Proof.
  intros L. destruct (Qclt_le_dec x 0) as [X|X].
  - destruct (Qclt_le_dec y 0) as [Y|Y].
    + pose proof (round_dec_mono_pos d (- y) (- x)) as K. rewrite !round_dec_opp in K.
      assert (- round_dec d y <= - round_dec d x) as K2 by (apply K; qlra'). qlra'.
    + pose proof (round_dec_nonneg d y Y) as A. pose proof (round_dec_nonneg d (- x) ltac:(qlra')) as B. rewrite round_dec_opp in B. qlra'.
  - apply round_dec_mono_pos; assumption.
Qed.
Lemma round_dec_ZQ d z : round_dec d (ZQ z / ZQ (10 ^ Z.of_nat d)) = ZQ z / ZQ (10 ^ Z.of_nat d).
Proof.
  destruct (round_dec_nearest d (ZQ z / ZQ (10 ^ Z.of_nat d))) as [_ H]. specialize (H z).
  set (x := ZQ z / ZQ (10 ^ Z.of_nat d)) in *. set (y := round_dec d x) in *. assert (qabs (x - x) = 0) as E by (replace (x - x) with 0 by ring; apply Qc_is_canon; reflexivity).
  rewrite E in H. apply qabs_le in H. destruct H. apply Qcle_antisym; qlra'.
Qed.
Lemma round_dec_0 d : round_dec d 0 = 0.
Proof. pose proof (round_dec_ZQ d 0) as H. rewrite ZQ_0 in H. unfold Qcdiv in H. rewrite Qcmult_0_l in H. exact H. Qed.
(** A table of numbers of [d] decimals is nearest to itself only; two numbers more than a unit apart stay apart. *)
Lemma round_dec_near d x : qabs (round_dec d x - x) <= Q2Qc (1 # 2) / ZQ (10 ^ Z.of_nat d).
Proof.
  pose proof (unit_pos d) as U. pose proof (qpos_nz _ U) as NZ. set (P := ZQ (10 ^ Z.of_nat d)) in *.
  destruct (round_dec_nearest d x) as [_ H]. specialize (H (qround (x * P))). fold P in H. eapply Qcle_trans; [exact H|].
  pose proof (qround_near (x * P)) as N. set (r := ZQ (qround (x * P))) in *. apply qabs_le in N. destruct N as [N1 N2]. apply qabs_le.
  replace (r / P - x) with ((r - x * P) / P) by (field; exact NZ).
  replace (- (Q2Qc (1 # 2) / P)) with ((- Q2Qc (1 # 2)) / P) by (field; exact NZ).
  split; [apply qle_div_iff; [exact U|]|apply qdiv_le_iff; [exact U|]];
    match goal with |- context [?a / P * P] => replace (a / P * P) with a by (field; exact NZ) end; qlra'.
Qed.
Lemma round_dec_strict d x y : x + 1 / ZQ (10 ^ Z.of_nat d) < y -> round_dec d x < round_dec d y.
Proof.
  intros H. pose proof (round_dec_near d x) as A. pose proof (round_dec_near d y) as B. apply qabs_le in A, B. destruct A as [A1 A2], B as [B1 B2].
  pose proof (unit_pos d) as U. replace (Q2Qc (1 # 2) / ZQ (10 ^ Z.of_nat d)) with (Q2Qc (1 # 2) * (1 / ZQ (10 ^ Z.of_nat d))) in * by (field; apply (qpos_nz _ U)).
  generalize dependent (1 / ZQ (10 ^ Z.of_nat d)). intros u H A1 A2 B1 B2. qlra'.
Qed.

(** ** Tables *)
(** A line of a header: a comment without line breaks. *)
Definition comment_line (l : bytes) : Prop := exists t, l = chr 35 :: t /\ Forall (fun b => code b <> 10 /\ code b <> 13)%Z t.
Lemma unbroken_tok w : Forall (fun b => code b <> 10 /\ code b <> 13)%Z w -> forall l s, flines_from l (w ++ s) = flines_from (l ++ w) s.
Proof.
  induction 1 as [|b w Hb _ IH]; intros l s; [cbn; rewrite app_nil_r; reflexivity|]. cbn [app flines_from].
  destruct (Z.eqb_spec (code b) 10); [lia|]. destruct (Z.eqb_spec (code b) 13); [lia|]. rewrite IH, <- app_assoc. reflexivity.
Qed.
Lemma comment_flines l s : comment_line l -> flines (l ++ nl ++ s) = l :: flines s.
Proof.
  intros (t & -> & H). unfold flines. rewrite unbroken_tok.
  - cbn [app nl flines_from]. change (code (chr 10) =? 10)%Z with true. reflexivity.
  - constructor; [split; vm_compute; discriminate|exact H].
Qed.
Lemma comment_words l : comment_line l -> split_line l = [].
Proof. intros (t & -> & H). unfold split_line. cbn [split_hash]. destruct (split_hash t). change (code (chr 35) =? 35)%Z with true. reflexivity. Qed.
Definition row_fixed (r : list Qc) : bytes := join sp (map (fmt_fixed 3) r).
Lemma row_fixed_words r : fplain (row_fixed r) /\ split_line (row_fixed r) = map (fmt_fixed 3) r.
Proof.
  assert (fplain (row_fixed r)) as P.
  { apply fplain_join. apply Forall_forall. intros w Hw. apply in_map_iff in Hw. destruct Hw as (x & <- & _). apply fmt_fixed_fplain. lia. }
  split; [exact P|]. unfold split_line. rewrite split_hash_plain by exact P. cbn [fst]. apply words_join.
  apply Forall_forall. intros w Hw. apply in_map_iff in Hw. destruct Hw as (x & <- & _). apply fmt_fixed_plain. lia.
Qed.
Lemma table_words header rows : Forall comment_line header ->
  map split_line (flines (savetxt header rows)) = map (fun _ => []) header ++ map (map (fmt_fixed 3)) rows.
Proof.
  intros H. unfold savetxt. induction H as [|l header Hl H IH].
  - cbn [flat_map app map]. induction rows as [|r rows IH]; [reflexivity|]. cbn [flat_map map]. rewrite <- app_assoc. fold (row_fixed r).
    destruct (row_fixed_words r) as [P W]. rewrite flines_nl by exact P. cbn [map]. rewrite W. f_equal. exact IH.
  - cbn [flat_map map app]. rewrite <- !app_assoc. rewrite comment_flines by exact Hl. cbn [map]. rewrite comment_words by exact Hl. f_equal. exact IH.
Qed.
Lemma table_read header rows c : Forall comment_line header -> (0 < c)%nat -> (forall r, In r rows -> length r = c) ->
  genfromtxt (savetxt header rows) = Ok (map (map (fun x => Fin (round_dec 3 x))) rows).
Proof.
  intros Hh Hc Hr. unfold genfromtxt. rewrite table_words by exact Hh.
  assert (filter (fun ws : list bytes => negb (Nat.eqb (length ws) 0)) (map (fun _ => []) header ++ map (map (fmt_fixed 3)) rows) = map (map (fmt_fixed 3)) rows) as ->.
  { rewrite filter_app. assert (forall h : list bytes, filter (fun ws : list bytes => negb (Nat.eqb (length ws) 0)) (map (fun _ => []) h) = []) as -> by (induction h; [reflexivity|assumption]).
    cbn [app]. clear Hh. induction rows as [|r rows IH]; [reflexivity|]. cbn [map filter]. rewrite map_length, (Hr r) by (left; reflexivity).
    destruct c; [lia|]. cbn [Nat.eqb negb]. f_equal. apply IH. intros r' H'. apply Hr. right. exact H'. }
  destruct rows as [|r rows]; [reflexivity|]. cbn [map]. rewrite map_length, (Hr r) by (left; reflexivity).
  match goal with |- (if ?b then _ else _) = _ => assert (b = true) as -> end.
  { apply forallb_forall. intros ws Hw. cbn [In] in Hw. apply Nat.eqb_eq. destruct Hw as [<- |Hw]; [rewrite map_length; apply Hr; left; reflexivity|].
    apply in_map_iff in Hw. destruct Hw as (r' & <- & H'). rewrite map_length. apply Hr. right. exact H'. }
  apply f_equal.
  assert (forall w, map to_ext (map (fmt_fixed 3) w) = map (fun x => Fin (round_dec 3 x)) w) as K by (intros w; rewrite map_map; apply map_ext; apply to_ext_fixed).
  cbn [map]. rewrite K. f_equal. rewrite map_map. apply map_ext. exact K.
Qed.
Lemma rmapM_Fin (l : list Qc) : rmapM finite (map Fin l) = Ok l.
Proof. induction l as [|x l IH]; [reflexivity|]. cbn [map rmapM finite rbind]. rewrite IH. reflexivity. Qed.
Lemma two_columns_read header pts : Forall comment_line header -> (2 <= length pts)%nat ->
  read_columns (Some (savetxt header (map (fun p => [fst p; snd p]) pts))) = Ok (map (fun p => round_dec 3 (fst p)) pts, map (fun p => round_dec 3 (snd p)) pts).
Proof.
  intros Hh Hl. unfold read_columns, unpack2. rewrite (table_read header _ 2) by (try assumption; try lia; intros r Hr; apply in_map_iff in Hr; destruct Hr as (p & <- & _); reflexivity).
  cbn [rbind]. rewrite map_map. cbn [map]. destruct pts as [|p [|q pts]]; cbn [List.length] in Hl; [lia|lia|]. cbn [map List.length Nat.eqb]. cbn [rbind nth].
  rewrite !map_map. cbn [nth].
  rewrite <- !(map_map (fun p : Qc * Qc => round_dec 3 (fst p)) Fin), <- !(map_map (fun p : Qc * Qc => round_dec 3 (snd p)) Fin).
  cbn [rmapM finite rbind]. rewrite !rmapM_Fin. reflexivity.
Qed.
